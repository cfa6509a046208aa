(** Proofs about tokens. *)
From Coq Require Import Ascii ZArith Lia.
From stdpp Require Import strings list gmap.
From Verif Require Import AuthModel AuthSpec AuthProofs TokenModel TokenSpec.

(** *** Strings *)
Lemma sapp_nil_r (s : string) : (s +:+ "")%string = s.
Proof. induction s as [|c s IH]; [done|]. change (String c s +:+ "")%string with (String c (s +:+ "")). by rewrite IH. Qed.
Lemma sapp_assoc (a b c : string) : ((a +:+ b) +:+ c)%string = (a +:+ (b +:+ c))%string.
Proof. induction a as [|x a IH]; [done|]. change (String x ((a +:+ b) +:+ c) = String x (a +:+ (b +:+ c))). by rewrite IH. Qed.
Lemma has_prefix_app p s : has_prefix (p +:+ s) p = true.
Proof. induction p as [|c p IH]; [by destruct s|]. change (bool_decide (c = c) && has_prefix (p +:+ s) p = true). by rewrite bool_decide_true. Qed.
Lemma has_prefix_drop p s : has_prefix s p = true -> s = (p +:+ drop_prefix p s)%string.
Proof.
  revert s. induction p as [|c p IH]; intros s H; [by destruct s|]. destruct s as [|d s]; [done|]. cbn in H. apply andb_true_iff in H as [H1 H2].
  apply bool_decide_eq_true in H1 as ->. change (String d s = String d (p +:+ drop_prefix p s)). f_equal. by apply IH.
Qed.
Lemma drop_prefix_app p s : drop_prefix p (p +:+ s) = s.
Proof. induction p as [|c p IH]; [by destruct s|]. exact IH. Qed.

(** *** Time *)
Lemma second_val : second = 1000000000%Z. Proof. done. Qed.
Lemma date_bounds t : (numeric_date t * second <= t < numeric_date t * second + second)%Z.
Proof.
  unfold numeric_date. assert (P : (0 < second)%Z) by done. pose proof (Z.div_mod t second ltac:(lia)). pose proof (Z.mod_pos_bound t second P). lia.
Qed.
Opaque second.

Section token.
Context `{J : Jwt} (L : jwt_laws).

Lemma valid_spec now c : claims_valid now c = true
  <-> (forall e, tc_exp c = Some e -> (now < e * second)%Z) /\ (forall n, tc_nbf c = Some n -> (n * second <= now)%Z).
Proof.
  unfold claims_valid. rewrite andb_true_iff. destruct (tc_exp c) as [e|], (tc_nbf c) as [n|]; rewrite ?Z.ltb_lt, ?Z.leb_le; split; intros [A B]; split; intros; simplify_eq; auto; try done.
Qed.
Lemma rsa_spec alg : rsa_method alg = true <-> (alg = "RS256" \/ alg = "RS384" \/ alg = "RS512")%string.
Proof. unfold rsa_method. rewrite bool_decide_eq_true, !elem_of_cons. split; [intros [?|[?|[?|H]]]; auto; by apply elem_of_nil in H|intuition]. Qed.
Lemma parse_spec p now t c :
  parse_with_claims (fun alg => if rsa_method alg then Some p else None) now t = Some c <-> honoured p now t c.
Proof.
  unfold parse_with_claims, honoured. change (1000000000)%Z with second. split.
  - destruct (jwt_read t) as [[alg c']|] eqn:R; [|done]. destruct (rsa_method alg) eqn:A; [|done]. destruct (jwt_verify p t) eqn:V; [|done].
    destruct (claims_valid now c') eqn:W; [|done]. intros [= <-]. exists alg. apply rsa_spec in A. apply valid_spec in W. done.
  - intros (alg & R & A & V & W). rewrite R. apply rsa_spec in A as ->. rewrite V. apply valid_spec in W as ->. done.
Qed.
Lemma parse_any p now t c : honoured p now t c -> parse_with_claims (fun _ => Some p) now t = Some c.
Proof.
  unfold honoured, parse_with_claims. change (1000000000)%Z with second. intros (alg & -> & A & -> & W). apply valid_spec in W. by rewrite W.
Qed.
Lemma authenticate_spec p now h n u : authenticate p now h = Known n u
  <-> exists t c, h = ("Bearer " +:+ t)%string /\ honoured p now t c /\ n = tc_user c /\ u = user_of_claims rules_text (claims_of c).
Proof.
  unfold authenticate. split.
  - case_decide as E; [done|]. destruct (has_prefix h "Bearer ") eqn:P; [|done]. cbn [negb].
    destruct (parse_with_claims _ now _) as [c|] eqn:Q; [|done]. intros [= <- <-]. apply parse_spec in Q. exists (drop_prefix "Bearer " h), c. split; [by apply has_prefix_drop|done].
  - intros (t & c & -> & Q & -> & ->). rewrite decide_False by done. rewrite has_prefix_app. cbn [negb]. rewrite drop_prefix_app. apply parse_spec in Q. by rewrite Q.
Qed.
Lemma authenticate_none p now h : authenticate p now h = NoToken <-> h = EmptyString.
Proof. unfold authenticate. case_decide; [done|]. destruct (has_prefix h "Bearer "); cbn; [|done]. by destruct (parse_with_claims _ _ _). Qed.

Lemma rights c : Forall rule_text_ok (tc_rules c) -> has_rights (user_of_claims rules_text (claims_of c)) (tc_namespaces c) (tc_rules c).
Proof.
  intros O verb group resource sub name ns. rewrite authorize_spec. cbn [q_user q_resource_request q_verb q_group q_resource q_name q_namespace]. unfold permits, user_of_claims, claims_of. cbn [c_rules c_namespaces]. split.
  - intros (u & [= <-] & H). destruct (H eq_refl) as [H1 H2]. cbn [u_namespaces u_rules] in *. split; [done|]. destruct (tc_rules c) as [|r l] eqn:E; [by left|]. right.
    destruct H2 as (rules & R & H2). rewrite (law_rules L) in R by done. by injection R as <-.
  - intros [H1 H2]. eexists. split; [reflexivity|]. intros _. cbn [u_namespaces u_rules]. split; [done|]. destruct (tc_rules c) as [|r l] eqn:E; [done|].
    destruct H2 as [H2|H2]; [done|]. exists (r :: l). split; [by apply (law_rules L)|done].
Qed.
Lemma known_rights p now h n u : authenticate p now h = Known n u ->
  exists t c, h = ("Bearer " +:+ t)%string /\ honoured p now t c /\ n = tc_user c /\ has_rights u (tc_namespaces c) (tc_rules c).
Proof.
  intros H. apply authenticate_spec in H as (t & c & H1 & H2 & H3 & ->). exists t, c. split_and!; [done..|]. destruct H2 as (alg & R & _).
  apply rights. by destruct (law_read_ok L _ _ _ R) as (_ & _ & ? & _).
Qed.

Lemma fresh_honoured k now user nss rules expiry t : text_ok user -> Forall text_ok nss -> Forall rule_text_ok rules ->
  honoured (pub k) t (generate_token k now user nss rules expiry) (claims_for now user nss rules expiry)
  <-> (numeric_date now * second <= t < numeric_date (now + expiry) * second)%Z.
Proof.
  intros O1 O2 O3. assert (R := law_read L k (claims_for now user nss rules expiry)). feed specialize R. { split_and!; try done. apply (law_own L). }
  unfold honoured. change (1000000000)%Z with second. split.
  - intros (alg & _ & _ & _ & E & N). specialize (E _ eq_refl). specialize (N _ eq_refl). lia.
  - intros [A B]. exists "RS256"%string. split_and!; [done|by left|apply (law_verify L)| |]; intros ? [= <-]; lia.
Qed.
Lemma fresh_only k now user nss rules expiry t c : text_ok user -> Forall text_ok nss -> Forall rule_text_ok rules ->
  honoured (pub k) t (generate_token k now user nss rules expiry) c -> c = claims_for now user nss rules expiry.
Proof.
  intros O1 O2 O3 (alg & R & _). assert (R' := law_read L k (claims_for now user nss rules expiry)). feed specialize R'. { split_and!; try done. apply (law_own L). }
  unfold generate_token in R. rewrite R' in R. by injection R.
Qed.

Lemma set_last_ok l names : Forall text_ok names -> Forall rule_text_ok l -> Forall rule_text_ok (set_last_names l names).
Proof.
  intros N F. induction F as [|r l (A & B & C & D) F IH]; [constructor|]. cbn. destruct l; [constructor; [by split_and!|constructor]|]. by constructor.
Qed.

(** *** Files *)
Lemma keys_load fs hosts kf cf k : kf <> cf ->
  load_private_key (run_generate_keys fs hosts kf cf k) kf = Some k /\ load_public_key (run_generate_keys fs hosts kf cf k) cf = Some (pub k).
Proof.
  intros N. unfold load_private_key, load_public_key, run_generate_keys, write_cert_and_key, write_file.
  rewrite lookup_insert_ne by done. rewrite !lookup_insert. cbn. by rewrite (law_key L), (law_cert L).
Qed.
Lemma keys_other fs hosts kf cf k f : f <> kf -> f <> cf -> run_generate_keys fs hosts kf cf k !! f = fs !! f.
Proof. intros. unfold run_generate_keys, write_cert_and_key, write_file. by rewrite !lookup_insert_ne. Qed.
Lemma extract_generated addr user token cluster context ns i h : context <> EmptyString -> token <> EmptyString ->
  extract_token (generate_kubeconfig addr user token cluster context ns i h) = Some token.
Proof. intros. unfold extract_token, generate_kubeconfig. cbn. rewrite decide_False by done. rewrite lookup_singleton. rewrite lookup_singleton. by rewrite decide_False. Qed.
End token.

(** *** Lists on the command line *)
Lemma blank_nil : blank EmptyString. Proof. intros c H. by apply elem_of_nil in H. Qed.
Lemma blank_cons c s : blank (String c s) <-> is_space c = true /\ blank s.
Proof. unfold blank. cbn. setoid_rewrite elem_of_cons. split; [intros H; split; auto|intros [H1 H2] d [->|?]; auto]. Qed.
Lemma blank_app a b : blank (a +:+ b) <-> blank a /\ blank b.
Proof.
  induction a as [|c a IH]; [split; [split; [apply blank_nil|done]|by intros [_ ?]]|].
  change (String c a +:+ b)%string with (String c (a +:+ b)). rewrite !blank_cons, IH. tauto.
Qed.
Lemma trim_left_spec s : exists a, s = (a +:+ trim_left s)%string /\ blank a /\ (forall c r, trim_left s = String c r -> is_space c = false).
Proof.
  induction s as [|c s (a & E & B & F)]; [exists EmptyString; split_and!; [done|apply blank_nil|done]|]. cbn. destruct (is_space c) eqn:S.
  - exists (String c a). split_and!; [|by apply blank_cons|done]. change (String c s = String c (a +:+ trim_left s)). by f_equal.
  - exists EmptyString. split_and!; [done|apply blank_nil|]. by intros ? ? [= <- <-].
Qed.
Lemma snoc_inj (a b : string) x y : (a +:+ String x EmptyString)%string = (b +:+ String y EmptyString)%string -> a = b /\ x = y.
Proof.
  revert b. induction a as [|c a IH]; intros [|d b]; cbn.
  - by intros [= ->].
  - intros [= -> E]. exfalso. destruct b; cbn in E; discriminate E.
  - intros [= <- E]. exfalso. destruct a; cbn in E; discriminate E.
  - intros [= <- E]. destruct (IH _ E) as [-> ->]. done.
Qed.
Lemma trim_right_spec s : exists b, s = (trim_right s +:+ b)%string /\ blank b /\ (forall r c, trim_right s = (r +:+ String c EmptyString)%string -> is_space c = false).
Proof.
  induction s as [|c s (b & E & B & F)]; [exists EmptyString; split_and!; [done|apply blank_nil|intros []; discriminate]|]. cbn. destruct (trim_right s) as [|d t] eqn:T.
  - change (s = b) in E. subst b. destruct (is_space c) eqn:S.
    + exists (String c s). split_and!; [done|by apply blank_cons|intros []; discriminate].
    + exists s. split_and!; [done|done|]. intros r x Q. change (String c EmptyString) with (EmptyString +:+ String c EmptyString)%string in Q. apply snoc_inj in Q as [_ <-]. done.
  - exists b. split_and!; [|done|].
    + change (String c s = String c (String d t +:+ b)). by f_equal.
    + intros [|r0 r] x Q; [discriminate Q|]. injection Q as -> Q. by apply (F r x).
Qed.
Lemma trim_right_first s : (forall c r, s = String c r -> is_space c = false) -> forall c r, trim_right s = String c r -> is_space c = false.
Proof.
  destruct s as [|d s]; [done|]. intros F c r. cbn. assert (S := F d s eq_refl). destruct (trim_right s); [rewrite S|]; by intros [= <- <-].
Qed.
Lemma trim_space_trimmed s : trimmed s (trim_space s).
Proof.
  unfold trim_space. destruct (trim_left_spec s) as (a & E & A & F). destruct (trim_right_spec (trim_left s)) as (b & E' & B & G).
  exists a, b. split_and!; [by rewrite <- E'|done|done| |done]. by apply trim_right_first.
Qed.
Lemma trim_left_blank a s : blank a -> trim_left (a +:+ s) = trim_left s.
Proof. induction a as [|c a IH]; [done|]. rewrite blank_cons. intros [S B]. change (trim_left (String c (a +:+ s)) = trim_left s). cbn. rewrite S. by apply IH. Qed.
Lemma trim_right_blank b : blank b -> trim_right b = EmptyString.
Proof. induction b as [|c b IH]; [done|]. rewrite blank_cons. intros [S B]. cbn. by rewrite IH, S. Qed.
Lemma trim_right_app t b : blank b -> (forall r c, t = (r +:+ String c EmptyString)%string -> is_space c = false) -> trim_right (t +:+ b) = t.
Proof.
  intros B. induction t as [|c t IH]; intros F; [by apply trim_right_blank|]. change (trim_right (String c (t +:+ b)) = String c t). cbn. rewrite IH.
  - destruct t as [|d t]; [|done]. by rewrite (F EmptyString c).
  - intros r x ->. by apply (F (String c r) x).
Qed.
Lemma trimmed_unique s t : trimmed s t -> t = trim_space s.
Proof.
  intros (a & b & -> & A & B & F & G). unfold trim_space. rewrite trim_left_blank by done. destruct t as [|c t].
  - change (EmptyString +:+ b)%string with b. rewrite <- (sapp_nil_r b). by rewrite trim_left_blank.
  - change (String c t +:+ b)%string with (String c (t +:+ b)). cbn [trim_left]. rewrite (F c t) by done. symmetry. by apply (trim_right_app (String c t)).
Qed.
Lemma blank_trim s : blank s <-> trim_space s = EmptyString.
Proof.
  split.
  - intros B. unfold trim_space. rewrite <- (sapp_nil_r s), trim_left_blank by done. done.
  - intros E. destruct (trim_space_trimmed s) as (a & b & -> & A & B & _). rewrite E. apply blank_app. by split.
Qed.

Lemma without_comma_cons c s : without_comma (String c s) <-> c <> comma /\ without_comma s.
Proof. unfold without_comma. cbn. rewrite not_elem_of_cons. naive_solver. Qed.
Lemma split_comma_ne s : split_comma s <> [].
Proof. destruct s as [|c s]; [done|]. cbn. case_decide; [done|]. by destruct (split_comma s). Qed.
Lemma split_comma_spec s : Forall without_comma (split_comma s) /\ s = String.concat "," (split_comma s).
Proof.
  induction s as [|c s [F E]]; [split; [repeat constructor; by intros ?%elem_of_nil|done]|]. cbn. case_decide as D; subst.
  - split; [constructor; [by intros ?%elem_of_nil|done]|]. assert (N := split_comma_ne s). destruct (split_comma s) as [|p ps]; [done|]. rewrite E at 1. done.
  - assert (N := split_comma_ne s). destruct (split_comma s) as [|p ps]; [done|]. apply Forall_cons in F as [F1 F2]. split.
    + constructor; [|done]. by apply without_comma_cons.
    + rewrite E at 1. by destruct ps.
Qed.
Lemma split_comma_piece p : without_comma p -> split_comma p = [p].
Proof. induction p as [|c p IH]; [done|]. rewrite without_comma_cons. intros [N W]. cbn. rewrite decide_False by done. by rewrite IH. Qed.
Lemma split_comma_app p s : without_comma p -> split_comma (p +:+ String comma s) = p :: split_comma s.
Proof.
  induction p as [|c p IH].
  - intros _. change (split_comma (String comma s) = EmptyString :: split_comma s). cbn. by rewrite decide_True.
  - rewrite without_comma_cons. intros [N W]. change (split_comma (String c (p +:+ String comma s)) = String c p :: split_comma s). cbn. rewrite decide_False by done. by rewrite IH.
Qed.
Lemma split_comma_concat ps : ps <> [] -> Forall without_comma ps -> split_comma (String.concat "," ps) = ps.
Proof.
  induction ps as [|p ps IH]; [done|]. intros _ F. apply Forall_cons in F as [F1 F2]. destruct ps as [|q ps]; [by apply split_comma_piece|].
  change (split_comma (p +:+ String comma (String.concat "," (q :: ps))) = p :: q :: ps). rewrite split_comma_app by done. f_equal. by apply IH.
Qed.
Definition kept (ps : list string) : list string := List.filter (fun p => negb (String.eqb p EmptyString)) (map trim_space ps).
Lemma kept_cons p ps : kept (p :: ps) = if String.eqb (trim_space p) EmptyString then kept ps else trim_space p :: kept ps.
Proof. unfold kept. cbn. by destruct (trim_space p). Qed.
Lemma kept_items ps l : items ps l <-> l = kept ps.
Proof.
  split.
  - induction 1 as [|p t ps l T N I IH|p ps l B I IH]; [done| |]; rewrite kept_cons.
    + apply trimmed_unique in T as ->. apply String.eqb_neq in N as ->. by rewrite IH.
    + apply blank_trim in B. rewrite B. exact IH.
  - intros ->. induction ps as [|p ps IH]; [constructor|]. rewrite kept_cons. destruct (String.eqb_spec (trim_space p) EmptyString) as [E|N].
    + constructor; [|done]. by apply blank_trim.
    + constructor; [apply trim_space_trimmed|done..].
Qed.
Lemma parse_comma_spec s l : lists s l <-> parse_comma s = l.
Proof.
  change (parse_comma s) with (kept (split_comma s)). split.
  - intros (ps & N & F & -> & I). apply kept_items in I as ->. by rewrite split_comma_concat.
  - intros <-. destruct (split_comma_spec s) as [F E]. exists (split_comma s). split_and!; [apply split_comma_ne|done|done|by apply kept_items].
Qed.
