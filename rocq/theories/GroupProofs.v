(** View groups, UIDs and Secrets. *)
From Verif Require Import JsonModel ObjModel GroupModel PipelineModel PipelineSpec GroupSpec JsonProofs ObjProofs.

(** *** Strings *)
Lemma substring_0 n : forall s, String.substring 0 (String.length s) (s +:+ n) = s.
Proof. induction s as [|c s IH]; [by destruct n|]. change (String c s +:+ n) with (String c (s +:+ n)). cbn [String.length String.substring]. by rewrite IH. Qed.
Lemma substring_skip n p : forall s, String.substring (String.length s) n (s +:+ p) = String.substring 0 n p.
Proof. induction s as [|c s IH]; [done|]. change (String c s +:+ p) with (String c (s +:+ p)). cbn [String.length String.substring]. by rewrite IH. Qed.
Lemma substring_all s : String.substring 0 (String.length s) s = s.
Proof. induction s as [|c s IH]; simpl; [done|]. by rewrite IH. Qed.
Lemma length_app a b : String.length (a +:+ b) = (String.length a + String.length b)%nat.
Proof. induction a as [|c a IH]; [done|]. change (String c a +:+ b) with (String c (a +:+ b)). cbn [String.length]. by rewrite IH. Qed.
Lemma substring_split s : forall n, (n <= String.length s)%nat -> s = String.substring 0 n s +:+ String.substring n (String.length s - n) s.
Proof.
  induction s as [|c s IH]; intros [|n] H; simpl in *; try done; try lia.
  - by rewrite substring_all.
  - change (String c (String.substring 0 n s) +:+ ?x) with (String c (String.substring 0 n s +:+ x)). f_equal. apply IH. lia.
Qed.
Lemma has_suffix_app suf p : has_suffix suf (p +:+ suf) = true.
Proof.
  unfold has_suffix. rewrite length_app. apply andb_true_iff. split; [apply Nat.leb_le; lia|]. apply String.eqb_eq.
  replace (String.length p + String.length suf - String.length suf)%nat with (String.length p) by lia. rewrite substring_skip. apply substring_all.
Qed.
Lemma has_suffix_iff suf s : has_suffix suf s = true <-> exists p, s = p +:+ suf.
Proof.
  split; [|intros [p ->]; apply has_suffix_app]. unfold has_suffix. rewrite andb_true_iff, Nat.leb_le, String.eqb_eq. intros [L E].
  exists (String.substring 0 (String.length s - String.length suf) s). rewrite (substring_split s (String.length s - String.length suf)) at 1 by lia.
  f_equal. rewrite <-E at 3. f_equal. lia.
Qed.
Lemma prefix_of_app suf p : String.substring 0 (String.length (p +:+ suf) - String.length suf) (p +:+ suf) = p.
Proof. rewrite length_app. replace (String.length p + String.length suf - String.length suf)%nat with (String.length p) by lia. apply substring_0. Qed.

(** *** Groups *)
Lemma cut_dot_app a b : no_dot a -> cut_dot (a +:+ "." +:+ b) = Some (a, b).
Proof.
  induction a as [|c a IH]; intros H; [done|]. destruct H as [H1 H2].
  change (String c a +:+ "." +:+ b) with (String c (a +:+ "." +:+ b)). cbn [cut_dot]. rewrite decide_False by done. by rewrite IH.
Qed.
Lemma cut_dot_none s : no_dot s -> cut_dot s = None.
Proof. induction s as [|c s IH]; intros H; [done|]. destruct H as [H1 H2]. cbn [cut_dot]. rewrite decide_False by done. by rewrite IH. Qed.
Lemma last_part_none s : no_dot s -> last_part s = s.
Proof.
  destruct s as [|c s]; [done|]. intros [H1 H2]. cbn [last_part]. rewrite cut_dot_none by done. by rewrite decide_False.
Qed.
Lemma cut_dot_some p s : exists a b, cut_dot (p +:+ "." +:+ s) = Some (a, b).
Proof.
  induction p as [|c p (a & b & IH)]; [by exists "", s|].
  change (String c p +:+ "." +:+ s) with (String c (p +:+ "." +:+ s)). cbn [cut_dot]. case_decide; [by eexists _, _|]. rewrite IH. cbn. by eexists _, _.
Qed.
Lemma last_part_app p s : no_dot s -> last_part (p +:+ "." +:+ s) = s.
Proof.
  intros H. induction p as [|c p IH].
  - change ("" +:+ "." +:+ s) with (String "."%char s). cbn [last_part]. rewrite cut_dot_none by done. by rewrite decide_True.
  - change (String c p +:+ "." +:+ s) with (String c (p +:+ "." +:+ s)). cbn [last_part]. destruct (cut_dot_some p s) as (a & b & ->). exact IH.
Qed.
Lemma view_group_suffix op : view_group op = op +:+ full_group_suffix.
Proof. done. Qed.
Lemma app_inv_tail (s a b : string) : a +:+ s = b +:+ s -> a = b.
Proof.
  intros E. assert (L : String.length a = String.length b). { apply (f_equal String.length) in E. rewrite !length_app in E. lia. }
  pose proof (substring_0 s a) as H1. pose proof (substring_0 s b) as H2. rewrite <-H1, <-H2, E. by rewrite L.
Qed.
Lemma view_group_inj a b : view_group a = view_group b -> a = b.
Proof. apply app_inv_tail. Qed.
Lemma get_operator_owns op x : no_dot op -> owns op (gvk_group x) -> get_operator x = op.
Proof.
  intros H [E|(g & v & E)]; unfold get_operator; rewrite E.
  - change (op +:+ ".view.dcontroller.io") with (op +:+ full_group_suffix). rewrite has_suffix_app, prefix_of_app. by apply last_part_none.
  - replace (g +:+ "." +:+ v +:+ "." +:+ op +:+ ".view.dcontroller.io") with ((g +:+ "." +:+ v +:+ "." +:+ op) +:+ full_group_suffix) by (by rewrite !app_assoc_s).
    rewrite has_suffix_app, prefix_of_app. replace (g +:+ "." +:+ v +:+ "." +:+ op) with ((g +:+ "." +:+ v) +:+ "." +:+ op) by (by rewrite !app_assoc_s). by apply last_part_app.
Qed.
Lemma map_into_owns op x : owns op (gvk_group (map_into_view op x)).
Proof. right. unfold map_into_view. cbn [gvk_group]. eexists _, _. reflexivity. Qed.
Lemma map_round op x : no_dot (gvk_group x) -> gvk_group x <> "core"%string -> no_dot (gvk_version x) -> map_from_view (map_into_view op x) = Some x.
Proof.
  intros H1 H2 H3. unfold map_from_view, map_into_view. cbn [gvk_group gvk_version gvk_kind].
  set (g := if decide (gvk_group x = "") then "core"%string else gvk_group x).
  assert (Hg : no_dot g) by (unfold g; case_decide; [by repeat split|done]).
  assert (E : is_view_group (g +:+ "." +:+ gvk_version x +:+ "." +:+ view_group op) = true).
  { apply has_suffix_iff. exists (g +:+ "." +:+ gvk_version x +:+ "." +:+ op +:+ "."). unfold view_group. by rewrite !app_assoc_s. }
  rewrite E. unfold split3. rewrite cut_dot_app by done. rewrite cut_dot_app by done. destruct x as [g0 v0 k0]. cbn in *. do 2 f_equal. unfold g. repeat case_decide; congruence.
Qed.

(** *** UIDs *)
Lemma split_at_slash a b c d : has_slash a = false -> has_slash c = false -> a +:+ "/" +:+ b = c +:+ "/" +:+ d -> a = c /\ b = d.
Proof.
  revert c. induction a as [|x a IH]; intros [|y c] Ha Hc E.
  - by injection E as ->.
  - injection E as <- E. exfalso. revert Hc. unfold has_slash. cbn [split_slash]. by rewrite decide_True.
  - injection E as -> E. exfalso. revert Ha. unfold has_slash. cbn [split_slash]. by rewrite decide_True.
  - injection E as -> E. unfold has_slash in Ha, Hc. cbn [split_slash] in Ha, Hc. case_decide; [done|].
    destruct (IH c) as [-> ->]; [| |exact E|done].
    + unfold has_slash. by destruct (split_slash a) as [[]|].
    + unfold has_slash. by destruct (split_slash c) as [[]|].
Qed.
Lemma uid_key_inj x y ns ns' n n' :
  has_slash (gvk_group x) = false -> has_slash (gvk_group y) = false -> has_slash (gvk_version x) = false -> has_slash (gvk_version y) = false ->
  has_slash (gvk_kind x) = false -> has_slash (gvk_kind y) = false -> has_slash ns = false -> has_slash ns' = false ->
  uid_key x ns n = uid_key y ns' n' -> x = y /\ ns = ns' /\ n = n'.
Proof.
  unfold uid_key. intros G1 G2 V1 V2 K1 K2 N1 N2 E.
  apply split_at_slash in E as [E1 E]; [|done..]. apply split_at_slash in E as [E2 E]; [|done..].
  apply split_at_slash in E as [E3 E]; [|done..]. apply split_at_slash in E as [E4 E]; [|done..].
  destruct x, y. simpl in *. by subst.
Qed.
Lemma mdel_mset_none m k v : ksorted m -> mget m k = None -> mdel (mset m k v) k = m.
Proof.
  intros H E. apply mget_ext; [by apply ksorted_del, ksorted_set|done|]. intros j. destruct (decide (j = k)) as [->|N].
  - rewrite mget_del_eq by (by apply ksorted_set). done.
  - rewrite mget_del_ne by congruence. apply mget_set_ne. congruence.
Qed.
Lemma mget_gvk_meta m v : get_gvk (mset m "metadata" v) = get_gvk m.
Proof. unfold get_gvk, get_api_version, get_kind, nested_str. cbn [nested_get]. by rewrite !mget_set_ne. Qed.
Lemma uid_restore hash m x : owf m -> is_view_kind (get_gvk m) = true -> mget m "metadata" = Some (JMap x) -> mget x "uid" = None ->
  hash (uid_key (get_gvk m) (get_namespace m) (get_name m)) <> ""%string -> remove_uid (with_uid hash m) = m.
Proof.
  intros W V E U H.
  assert (Eu : get_uid m = ""%string) by (unfold get_uid, nested_str; cbn [nested_get]; by rewrite E, U).
  unfold with_uid. rewrite V, Eu. cbn [negb orb String.eqb]. unfold set_uid, new_uid. rewrite decide_False by done.
  rewrite (nested_set2 m x) by done. set (u := hash _) in *. unfold remove_uid. rewrite mget_gvk_meta, V. cbn [negb orb].
  assert (E2 : get_uid (mset m "metadata" (JMap (mset x "uid" (JStr u)))) = u).
  { unfold get_uid, nested_str. cbn [nested_get]. by rewrite !mget_set_eq. }
  rewrite E2. destruct (String.eqb_spec u ""); [done|].
  rewrite (nested_del2 _ (mset x "uid" (JStr u))) by apply mget_set_eq.
  assert (Sx : ksorted x) by (apply owf_sorted; exact (owf_get _ _ _ W E)).
  rewrite mdel_mset_none by done. rewrite mset_set by (by apply owf_sorted). apply mset_same; [by apply owf_sorted|done].
Qed.
Lemma uid_native hash m : is_view_kind (get_gvk m) = false -> with_uid hash m = m.
Proof. unfold with_uid. by intros ->. Qed.
Lemma uid_kept hash m : get_uid m <> ""%string -> with_uid hash m = m.
Proof. unfold with_uid. intros H. destruct (String.eqb_spec (get_uid m) ""); [done|]. by rewrite orb_true_r. Qed.
Lemma uid_value hash m x : is_view_kind (get_gvk m) = true -> get_uid m = ""%string -> mget m "metadata" = Some (JMap x) ->
  hash (uid_key (get_gvk m) (get_namespace m) (get_name m)) <> ""%string ->
  get_uid (with_uid hash m) = hash (uid_key (get_gvk m) (get_namespace m) (get_name m)).
Proof.
  intros V U E H. unfold with_uid. rewrite V, U. cbn [negb orb String.eqb]. unfold set_uid, new_uid. rewrite decide_False by done. rewrite (nested_set2 m x) by done.
  unfold get_uid at 1, nested_str. cbn [nested_get]. by rewrite !mget_set_eq.
Qed.

(** *** Base64 *)
Lemma below (Q : N -> bool) n (k : nat) : forallb Q (map N.of_nat (seq 0 k)) = true -> (n < N.of_nat k)%N -> Q n = true.
Proof.
  intros H L. rewrite forallb_forall in H. apply H. apply in_map_iff. exists (N.to_nat n). split; [apply N2Nat.id|]. apply in_seq. lia.
Qed.
Definition char_ok (n : N) : bool :=
  bool_decide (b64_val (b64_char n) = Some n) && negb (b64_newline (b64_char n)) && bool_decide (b64_char n <> "="%char).
Lemma b64_char_ok n : (n < 64)%N -> b64_val (b64_char n) = Some n /\ b64_newline (b64_char n) = false /\ b64_char n <> "="%char.
Proof.
  intros L. assert (H : char_ok n = true) by (apply (below char_ok n 64); [vm_compute; reflexivity|lia]).
  unfold char_ok in H. apply andb_true_iff in H as [H H3]. apply andb_true_iff in H as [H1 H2]. apply bool_decide_eq_true in H1, H3. by apply negb_true_iff in H2.
Qed.
Lemma byte_lt c : (N_of_ascii c < 256)%N.
Proof. apply N_ascii_bounded. Qed.
Ltac divs := zify; Z.to_euclidean_division_equations; lia.
Lemma drop_encode s : drop_newlines (b64_encode s) = b64_encode s.
Proof.
  assert (C : forall n t, (n < 64)%N -> drop_newlines (String (b64_char n) t) = String (b64_char n) (drop_newlines t)).
  { intros n t L. cbn [drop_newlines]. destruct (b64_char_ok n L) as (_ & -> & _). done. }
  revert s. fix IH 1. intros [|x [|y [|z s]]]; [done|..]; cbn [b64_encode]; cbv zeta; pose proof (byte_lt x).
  - rewrite !C by divs. done.
  - pose proof (byte_lt y). rewrite !C by divs. done.
  - pose proof (byte_lt y). pose proof (byte_lt z). rewrite !C by divs. by rewrite IH.
Qed.
Lemma b64_round s : b64_decode (b64_encode s) = Some s.
Proof.
  unfold b64_decode. rewrite drop_encode. revert s. fix IH 1.
  assert (A : forall c n, N_of_ascii c = n -> ascii_of_N n = c) by (intros c n <-; apply ascii_N_embedding).
  intros [|x [|y [|z s]]]; [done|..]; cbn [b64_encode]; cbv zeta; pose proof (byte_lt x) as Lx.
  - set (n := N_of_ascii x) in *. destruct (b64_char_ok (n / 4)) as (V1 & _ & D1); [divs|]. destruct (b64_char_ok ((n mod 4) * 16)) as (V2 & _ & D2); [divs|].
    cbn [b64_quads]. rewrite V1, V2. cbn [mbind option_bind]. rewrite decide_True by done. rewrite decide_True by done. do 2 f_equal. unfold byte1. apply A. fold n. divs.
  - pose proof (byte_lt y) as Ly. set (n := N_of_ascii x) in *. set (m := N_of_ascii y) in *.
    destruct (b64_char_ok (n / 4)) as (V1 & _ & D1); [divs|]. destruct (b64_char_ok ((n mod 4) * 16 + m / 16)) as (V2 & _ & D2); [divs|]. destruct (b64_char_ok ((m mod 16) * 4)) as (V3 & _ & D3); [divs|].
    cbn [b64_quads]. rewrite V1, V2. cbn [mbind option_bind]. rewrite decide_False by done. rewrite V3. cbn [mbind option_bind]. rewrite decide_True by done. rewrite decide_True by done.
    do 2 f_equal; [unfold byte1; apply A; fold n; divs|]. f_equal. unfold byte2. apply A. fold m. divs.
  - pose proof (byte_lt y) as Ly. pose proof (byte_lt z) as Lz. set (n := N_of_ascii x) in *. set (m := N_of_ascii y) in *. set (k := N_of_ascii z) in *.
    destruct (b64_char_ok (n / 4)) as (V1 & _ & D1); [divs|]. destruct (b64_char_ok ((n mod 4) * 16 + m / 16)) as (V2 & _ & D2); [divs|].
    destruct (b64_char_ok ((m mod 16) * 4 + k / 64)) as (V3 & _ & D3); [divs|]. destruct (b64_char_ok (k mod 64)) as (V4 & _ & D4); [divs|].
    cbn [b64_quads]. rewrite V1, V2. cbn [mbind option_bind]. rewrite decide_False by done. rewrite V3. cbn [mbind option_bind]. rewrite decide_False by done. rewrite V4. cbn [mbind option_bind].
    rewrite IH. cbn [mbind option_bind]. do 2 f_equal; [unfold byte1; apply A; fold n; divs|]. f_equal; [unfold byte2; apply A; fold m; divs|]. f_equal. unfold byte3. apply A. fold k. divs.
Qed.

(** *** Secrets *)
Lemma mget_map_values f m k : mget (map (fun kv => (kv.1, f kv.2)) m) k = f <$> mget m k.
Proof. induction m as [|[j v] m IH]; [done|]. simpl. case_decide; done. Qed.
Lemma decode_other m : get_kind m <> "Secret"%string -> decode_secret m = m.
Proof. unfold decode_secret. intros H. by rewrite decide_False. Qed.
Lemma decode_get m d k : get_kind m = "Secret"%string -> mget m "data" = Some (JMap d) -> exists d', mget (decode_secret m) "data" = Some (JMap d') /\ mget d' k = decode_value <$> mget d k.
Proof.
  intros K D. unfold decode_secret. rewrite decide_True by done. rewrite D, mget_set_eq. eexists. split; [done|]. apply mget_map_values.
Qed.
Lemma decode_keeps m k : k <> "data"%string -> mget (decode_secret m) k = mget m k.
Proof. intros N. unfold decode_secret. case_decide; [|done]. destruct (mget m "data") as [[]|]; try done. by apply mget_set_ne. Qed.

(** *** Texts that are not base64 *)
Lemma drop_newlines_in s c : c ∈ list_ascii_of_string s -> b64_newline c = false -> c ∈ list_ascii_of_string (drop_newlines s).
Proof.
  induction s as [|d s IH]; [done|]. cbn [list_ascii_of_string drop_newlines]. intros H N. apply elem_of_cons in H as [->|H].
  - rewrite N. left.
  - destruct (b64_newline d); [by apply IH|]. right. by apply IH.
Qed.
Lemma b64_val_char c n : b64_val c = Some n -> base64_char c.
Proof.
  unfold b64_val, base64_char. cbv zeta. intros H.
  assert (B : forall a b, byte_in a b c = true -> (a <= N_of_ascii c <= b)%N) by (intros a b E; unfold byte_in in E; apply andb_true_iff in E as [E1 E2]; apply N.leb_le in E1, E2; done).
  destruct (byte_in 65 90 c) eqn:E1; [apply B in E1; lia|]. destruct (byte_in 97 122 c) eqn:E2; [apply B in E2; lia|]. destruct (byte_in 48 57 c) eqn:E3; [apply B in E3; lia|].
  case_decide; [subst; replace (N_of_ascii "+"%char) with 43%N by done; lia|]. case_decide; [subst; replace (N_of_ascii "/"%char) with 47%N by done; lia|]. done.
Qed.
Lemma b64_quads_chars n : forall s t, (String.length s <= n)%nat -> b64_quads s = Some t -> forall c, c ∈ list_ascii_of_string s -> base64_char c.
Proof.
  assert (P : base64_char "="%char) by (unfold base64_char; replace (N_of_ascii "="%char) with 61%N by done; lia).
  induction n as [|n IH]; intros s t Hn H c Hc; destruct s as [|c1 [|c2 [|c3 [|c4 s]]]]; try done; try (by apply elem_of_nil in Hc); cbn [String.length] in Hn; try lia.
  cbn [b64_quads] in H. destruct (b64_val c1) as [a|] eqn:E1; [|done]. destruct (b64_val c2) as [b|] eqn:E2; [|done]. cbn [mbind option_bind] in H.
  apply b64_val_char in E1, E2. cbn [list_ascii_of_string] in Hc. rewrite !elem_of_cons in Hc. case_decide.
  - case_decide as D; [|done]. destruct D as [-> ->]. subst c3. destruct Hc as [->|[->|[->|[->|Hc]]]]; try done. by apply elem_of_nil in Hc.
  - destruct (b64_val c3) as [c'|] eqn:E3; [|done]. cbn [mbind option_bind] in H. apply b64_val_char in E3. case_decide.
    + case_decide; [|done]. subst. destruct Hc as [->|[->|[->|[->|Hc]]]]; try done. by apply elem_of_nil in Hc.
    + destruct (b64_val c4) as [d|] eqn:E4; [|done]. cbn [mbind option_bind] in H. apply b64_val_char in E4. destruct (b64_quads s) as [r|] eqn:Es; [|done].
      destruct Hc as [->|[->|[->|[->|Hc]]]]; try done. eapply IH; [|exact Es|exact Hc]. lia.
Qed.
Lemma b64_refused s : (exists c, c ∈ list_ascii_of_string s /\ ~ base64_char c) -> b64_decode s = None.
Proof.
  intros (c & Hc & N). unfold b64_decode. destruct (b64_quads (drop_newlines s)) as [t|] eqn:E; [|done]. exfalso. apply N. eapply b64_quads_chars; [reflexivity|exact E|].
  apply drop_newlines_in; [done|]. destruct (b64_newline c) eqn:Nl; [|done]. exfalso. apply N. unfold b64_newline, byte_in in Nl. unfold base64_char. apply orb_true_iff in Nl as [Nl|Nl]; apply andb_true_iff in Nl as [N1 N2]; apply N.leb_le in N1, N2; lia.
Qed.
