From Verif Require Import AuthModel AuthSpec.
From Coq Require Import Ascii.
From stdpp Require Import strings list.

Lemma cons_app c (s t : string) : String c s +:+ t = String c (s +:+ t).
Proof. reflexivity. Qed.
Lemma app_nil_s (s : string) : s +:+ "" = s.
Proof. induction s as [|c s IH]; [done|]. rewrite cons_app. by rewrite IH. Qed.
Lemma app_assoc_s (a b c : string) : (a +:+ b) +:+ c = a +:+ (b +:+ c).
Proof. induction a as [|x a IH]; [done|]. rewrite !cons_app. by rewrite IH. Qed.

Lemma has_prefix_spec v p : has_prefix v p = true <-> starts_with v p.
Proof.
  revert v. induction p as [|c p IH]; intros v.
  - simpl. split; [|done]. intros _. by exists v.
  - destruct v as [|d v]; cbn [has_prefix].
    + split; [done|]. intros [x E]. by rewrite cons_app in E.
    + rewrite andb_true_iff, bool_decide_eq_true, IH. split.
      * intros [-> [x ->]]. exists x. by rewrite cons_app.
      * intros [x E]. rewrite cons_app in E. injection E as -> ->. split; [done|]. by exists x.
Qed.
Lemma has_suffix_spec v s : has_suffix v s = true <-> ends_with v s.
Proof.
  induction v as [|d v IH]; cbn [has_suffix]; rewrite orb_true_iff, bool_decide_eq_true.
  - split.
    + intros [<-|]; [|done]. by exists "".
    + intros [x E]. left. destruct x; [done|]. by rewrite cons_app in E.
  - rewrite IH. split.
    + intros [<-|[x ->]]; [by exists ""|]. exists (String d x). by rewrite cons_app.
    + intros [x E]. destruct x as [|e x]; [by left|]. right. rewrite cons_app in E. injection E as -> ->. by exists x.
Qed.
Lemma bool_iff (b : bool) (Q : Prop) : (b = true <-> Q) -> b = false <-> ~ Q.
Proof. destruct b; intros H; split; try done; [intros HQ; exfalso; apply HQ; by apply H|]. intros _ HQ. by apply H in HQ. Qed.

Lemma trim_l s : trim_star_l ("*" +:+ s) = s.
Proof. reflexivity. Qed.
Lemma trim_r s : trim_star_r (s +:+ "*") = s.
Proof.
  induction s as [|c s IH]; [reflexivity|]. rewrite cons_app. cbn [trim_star_r]. rewrite IH.
  by destruct s.
Qed.
Lemma has_star_app a b : has_star (a +:+ b) = has_star a || has_star b.
Proof. induction a as [|c a IH]; [done|]. rewrite cons_app. cbn [has_star]. by rewrite IH, orb_assoc. Qed.
Lemma split_spec s : match split_star s with
  | Some (a, b) => star_free a /\ s = a +:+ "*" +:+ b
  | None => star_free s end.
Proof.
  induction s as [|c s IH]; [done|]. cbn [split_star]. case_decide as H; [by subst c|].
  destruct (split_star s) as [[a b]|].
  - destruct IH as [H1 ->]. split; [|by rewrite cons_app]. unfold star_free in *. cbn [has_star]. rewrite H1. by rewrite bool_decide_eq_false_2.
  - unfold star_free in *. cbn [has_star]. rewrite IH. by rewrite bool_decide_eq_false_2.
Qed.
Lemma split_unique a b a' b' : star_free a -> star_free a' -> a +:+ "*" +:+ b = a' +:+ "*" +:+ b' -> a = a' /\ b = b'.
Proof.
  unfold star_free. revert a'. induction a as [|c a IH]; intros [|c' a'] H H' E.
  - by injection E as ->.
  - rewrite cons_app in E. change ("" +:+ "*" +:+ b) with (String star b) in E. injection E as <- _.
    by cbn [has_star] in H'.
  - rewrite cons_app in E. change ("" +:+ "*" +:+ b') with (String star b') in E. injection E as -> _.
    by cbn [has_star] in H.
  - rewrite !cons_app in E. injection E as -> E. cbn [has_star] in H, H'. apply orb_false_iff in H as [_ H], H' as [_ H'].
    destruct (IH a' H H' E) as [-> ->]. done.
Qed.
Lemma split_app a b : star_free a -> split_star (a +:+ "*" +:+ b) = Some (a, b).
Proof.
  intros H. pose proof (split_spec (a +:+ "*" +:+ b)) as HS. destruct (split_star _) as [[a' b']|].
  - destruct HS as [H' E]. by destruct (split_unique _ _ _ _ H H' E) as [-> ->].
  - unfold star_free in HS. rewrite !has_star_app in HS. simpl in HS. rewrite orb_true_r in HS. done.
Qed.

Lemma wildcard_spec p v : has_star p = true -> p <> v ->
  matches_wildcard p v = true <-> accepts p v.
Proof.
  intros Hs Hne. unfold matches_wildcard, accepts.
  destruct (has_prefix p "*") eqn:E1; [|destruct (has_suffix p "*") eqn:E2].
  - apply has_prefix_spec in E1 as [s ->]. rewrite trim_l, has_suffix_spec. split.
    + intros H. right. left. by exists s.
    + intros [?|[(s' & E & H)|[[H _]|[H _]]]]; [done|..].
      * by injection E as <-.
      * exfalso. apply H. by exists s.
      * exfalso. apply H. by exists s.
  - apply has_suffix_spec in E2 as [s ->]. rewrite trim_r, has_prefix_spec.
    pose proof (proj1 (bool_iff _ _ (has_prefix_spec _ _)) E1) as N1. split.
    + intros H. right. right. left. split; [done|]. by exists s.
    + intros [?|[(s' & E & H)|[(_ & s' & E & H)|(_ & H & _)]]]; [done|..].
      * exfalso. apply N1. by exists s'.
      * pose proof (f_equal trim_star_r E) as E'. rewrite !trim_r in E'. by subst s'.
      * exfalso. apply H. by exists s.
  - pose proof (proj1 (bool_iff _ _ (has_prefix_spec _ _)) E1) as N1. pose proof (proj1 (bool_iff _ _ (has_suffix_spec _ _)) E2) as N2.
    pose proof (split_spec p) as HS. destruct (split_star p) as [[a b]|]; [|unfold star_free in HS; by rewrite HS in Hs].
    destruct HS as [Ha ->]. rewrite andb_true_iff, has_prefix_spec, has_suffix_spec. split.
    + intros [H1 H2]. right. right. right. split; [done|]. split; [done|]. by exists a, b.
    + intros [?|[(s' & E & H)|[(_ & s' & E & H)|(_ & _ & a' & b' & Ha' & E & H)]]]; [done|..].
      * exfalso. apply N1. rewrite E. by exists s'.
      * exfalso. apply N2. rewrite E. by exists s'.
      * by destruct (split_unique _ _ _ _ Ha Ha' E) as [-> ->].
Qed.
Lemma accepts_no_star p v : has_star p = false -> accepts p v <-> p = v.
Proof.
  intros Hs. split; [|by left]. intros [?|[(s & -> & _)|[(_ & s & -> & _)|(_ & _ & a & b & _ & -> & _)]]]; [done|exfalso..];
    rewrite ?has_star_app in Hs; simpl in Hs; by rewrite ?orb_true_r in Hs.
Qed.
Lemma matches_spec l v : matches l v = true <-> some_accepts l v.
Proof.
  unfold some_accepts. induction l as [|p l IH].
  - simpl. split; [done|]. intros (p & H & _). by apply elem_of_nil in H.
  - cbn [matches]. assert (HC : (exists q, q ∈ p :: l /\ accepts q v) <-> accepts p v \/ exists q, q ∈ l /\ accepts q v).
    { setoid_rewrite elem_of_cons. split.
      - intros (q & [->|H] & A); [by left|]. right. by exists q.
      - intros [A|(q & H & A)]; [exists p; auto|]. exists q. auto. }
    rewrite HC, <-IH. case_decide as H1.
    + subst p. split; [|done]. intros _. left. right. left. exists "". split; [done|]. exists v. by rewrite app_nil_s.
    + case_decide as H2; [subst p; split; [|done]; intros _; left; by left|].
      destruct (has_star p) eqn:Es; cbn [andb].
      * pose proof (wildcard_spec p v Es H2) as HW. destruct (matches_wildcard p v).
        -- split; [|done]. intros _. left. by apply HW.
        -- split; [by right|]. intros [A|?]; [|done]. by apply HW in A.
      * split; [by right|]. intros [A|?]; [|done]. by apply accepts_no_star in A.
Qed.
Lemma collection_spec v : collection_verb v = true <-> on_collection v.
Proof. unfold collection_verb, on_collection. rewrite bool_decide_eq_true, !elem_of_cons, elem_of_nil. tauto. Qed.
Lemma rule_spec r verb group resource name : rule_matches r verb group resource name = true <-> grants r verb group resource name.
Proof.
  unfold rule_matches, grants. rewrite <-!matches_spec, <-collection_spec.
  destruct (matches (r_verbs r) verb), (matches (r_groups r) group), (matches (r_resources r) resource); cbn [negb]; try (split; [done|]; intuition discriminate).
  destruct (collection_verb verb); [tauto|]. destruct (r_names r) as [|n l] eqn:En; [tauto|].
  case_decide; [tauto|]. split; [tauto|]. intros (_ & _ & _ & [?|[?|[?|?]]]); done.
Qed.
Lemma existsb_spec {A} (f : A -> bool) l : existsb f l = true <-> exists x, x ∈ l /\ f x = true.
Proof. rewrite existsb_exists. by setoid_rewrite elem_of_list_In. Qed.

Section auth.
Context {T : Type} (dec : T -> option (list rule)).
Lemma namespace_spec (u : user T) ns : namespace_check u ns = true <-> admits (u_namespaces u) ns.
Proof.
  unfold namespace_check, admits. destruct (u_namespaces u) as [|n l]; [split; [by left|done]|].
  cbv zeta. set (L := n :: l).
  assert (HW : existsb (fun n => bool_decide (n = "*"%string)) L = true <-> "*"%string ∈ L).
  { rewrite existsb_spec. setoid_rewrite bool_decide_eq_true. split; [by intros (? & ? & ->)|]. intros H. by exists "*". }
  assert (HN : existsb (fun n => bool_decide (n = ns)) L = true <-> ns ∈ L).
  { rewrite existsb_spec. setoid_rewrite bool_decide_eq_true. split; [by intros (? & ? & ->)|]. intros H. by exists ns. }
  case_decide as E.
  - rewrite HW. split; [auto|]. intros [?|[?|[? ?]]]; done.
  - destruct (existsb _ L) eqn:EW; [split; [|done]; intros _; right; left; by apply HW|].
    rewrite HN. split; [auto|]. intros [?|[H|[? ?]]]; [done| |done]. by apply HW in H.
Qed.
Lemma rbac_spec (u : user T) verb group resource name : check_rbac dec u verb group resource name = true <->
  match u_rules u with [] => True | t :: _ => exists rules, dec t = Some rules /\ exists r, r ∈ rules /\ grants r verb group resource name end.
Proof.
  unfold check_rbac. destruct (u_rules u) as [|t l]; [done|]. destruct (dec t) as [rules|].
  - rewrite existsb_spec. setoid_rewrite rule_spec. split; [intros H; by exists rules|]. by intros (? & [= <-] & H).
  - split; [done|]. by intros (? & ? & _).
Qed.
Lemma authorize_spec (q : request T) : authorize dec q = true <->
  exists u, q_user q = Some u /\
    (q_resource_request q = true -> admits (u_namespaces u) (q_namespace q)
      /\ match u_rules u with [] => True | t :: _ => exists rules, dec t = Some rules
           /\ exists r, r ∈ rules /\ grants r (q_verb q) (q_group q) (q_resource q) (q_name q) end).
Proof.
  unfold authorize. destruct (q_user q) as [u|].
  - pose proof (namespace_spec u (q_namespace q)) as HN. pose proof (rbac_spec u (q_verb q) (q_group q) (q_resource q) (q_name q)) as HR.
    destruct (q_resource_request q); cbn [negb].
    + destruct (namespace_check u (q_namespace q)); cbn [negb].
      * rewrite HR. split; [intros H; exists u; split; [done|]; intros _; split; [by apply HN|done]|]. intros (? & [= <-] & H). by apply H.
      * split; [done|]. intros (? & [= <-] & H). destruct (H eq_refl) as [H1 _]. by apply HN in H1.
    + split; [|done]. intros _. by exists u.
  - split; [done|]. by intros (? & ? & _).
Qed.
Variable enc : list rule -> T.
Lemma claims_spec c (q : request T) : (forall l, dec (enc l) = Some l) -> q_user q = Some (user_of_claims enc c) ->
  q_resource_request q = true ->
  authorize dec q = true <-> admits (c_namespaces c) (q_namespace q) /\ permits (c_rules c) (q_verb q) (q_group q) (q_resource q) (q_name q).
Proof.
  intros Hrt Hu Hr. rewrite authorize_spec, Hu, Hr. unfold user_of_claims, permits. cbn [u_namespaces u_rules]. split.
  - intros (? & [= <-] & H). destruct (H eq_refl) as [H1 H2]. split; [done|]. cbn [u_namespaces u_rules] in *.
    destruct (c_rules c) as [|r l]; [by left|]. destruct H2 as (rules & E & H2). rewrite Hrt in E. injection E as <-. by right.
  - intros [H1 H2]. eexists. split; [reflexivity|]. intros _. split; [done|]. cbn [u_rules].
    destruct (c_rules c) as [|r l]; [done|]. destruct H2 as [?|H2]; [done|]. eexists. by split; [apply Hrt|].
Qed.
End auth.

Lemma admits_mono l l' ns : l <> [] -> l ⊆ l' -> admits l ns -> admits l' ns.
Proof. intros Hn Hs [?|[H|[? H]]]; [done|right; left|right; right]; [by apply Hs|]. split; [done|by apply Hs]. Qed.
Lemma permits_mono l l' v g rs n : l <> [] -> l ⊆ l' -> permits l v g rs n -> permits l' v g rs n.
Proof. intros Hn Hs [?|(r & H & G)]; [done|]. right. exists r. split; [by apply Hs|done]. Qed.

(** ** Patterns *)
Lemma accepts_star p a b v : p = a +:+ "*" +:+ b -> star_free a -> star_free b -> accepts p v <-> starts_with v a /\ ends_with v b.
Proof.
  intros -> Ha Hb. assert (Ea : starts_with (a +:+ "*" +:+ b) "*" -> a = "").
  { intros [x E]. destruct a as [|c a]; [done|]. rewrite cons_app in E. injection E as -> _. done. }
  assert (Eb : ends_with (a +:+ "*" +:+ b) "*" -> b = "").
  { intros [x E]. assert (E2 : trim_star_r (a +:+ "*" +:+ b) +:+ "*" = a +:+ "*" +:+ b) by (rewrite E, trim_r; done).
    clear x E Ea. destruct (string_eq_dec b "") as [?|Hn]; [done|]. exfalso.
    assert (G : forall s t, t <> "" -> star_free t -> trim_star_r (s +:+ t) +:+ "*" <> s +:+ t).
    { assert (G0 : forall t, t <> "" -> star_free t -> trim_star_r t = t).
      { induction t as [|c t IH]; [done|]. intros _ Hf. unfold star_free in *. cbn [has_star] in Hf. apply orb_false_iff in Hf as [Hc Hf].
        apply bool_decide_eq_false in Hc. cbn [trim_star_r]. destruct t; [by rewrite decide_False|]. by rewrite IH. }
      intros s t Ht Hf E. assert (E3 : trim_star_r (s +:+ t) = s +:+ t).
      { clear E. induction s as [|c s IH]; [by apply G0|]. rewrite cons_app. cbn [trim_star_r]. rewrite IH.
        destruct (s +:+ t) eqn:Est; [|done]. destruct s; [|by rewrite cons_app in Est]. by simpl in Est. }
      rewrite E3 in E. pose proof (f_equal String.length E) as EL. clear -EL. revert EL. generalize (s +:+ t). intros u.
      assert (String.length (u +:+ "*") = S (String.length u)). { induction u as [|c u IH]; [done|]. rewrite cons_app. cbn. by rewrite IH. } lia. }
    apply (G (a +:+ "*") b Hn Hb). rewrite app_assoc_s. done. }
  unfold accepts. split.
  - intros [<-|[(s & E & H)|[(N & s & E & H)|(N1 & N2 & a' & b' & Ha' & E & H)]]].
    + split; [by exists ("*" +:+ b)|]. exists (a +:+ "*"). by rewrite app_assoc_s.
    + assert (a = "") as -> by (apply Ea; rewrite E; by exists s). injection E as <-. split; [by exists v|done].
    + assert (b = "") as -> by (apply Eb; rewrite E; by exists s). rewrite app_nil_s in E. pose proof (f_equal trim_star_r E) as E'.
      rewrite !trim_r in E'. subst s. split; [done|]. exists v. by rewrite app_nil_s.
    + by destruct (split_unique _ _ _ _ Ha Ha' E) as [-> ->].
  - intros [H1 H2]. right. destruct (string_eq_dec a "") as [->|Na].
    + left. by exists b.
    + right. assert (N : ~ starts_with (a +:+ "*" +:+ b) "*") by auto. destruct (string_eq_dec b "") as [->|Nb].
      * left. split; [done|]. exists a. by rewrite app_nil_s.
      * right. split; [done|]. split; [auto|]. by exists a, b.
Qed.
Lemma app_length_s (a b : string) : String.length (a +:+ b) = (String.length a + String.length b)%nat.
Proof. induction a as [|c a IH]; [done|]. rewrite cons_app. cbn. by rewrite IH. Qed.
Lemma glob_split a b v : (String.length a + String.length b <= String.length v)%nat -> starts_with v a -> ends_with v b -> glob a b v.
Proof.
  intros HL [x ->] [y E]. rewrite app_length_s in HL. assert (HL' : (String.length b <= String.length x)%nat) by lia. clear HL.
  assert (G : exists z, x = z +:+ b).
  { revert y E. induction a as [|c a IH]; intros y E; [by exists y|]. rewrite cons_app in E. destruct y as [|d y].
    - exfalso. pose proof (f_equal String.length E) as EL. rewrite <-cons_app, !app_length_s in EL. simpl in EL. lia.
    - rewrite cons_app in E. injection E as _ E. by eapply IH. }
  destruct G as [z ->]. exists z. done.
Qed.
Lemma single_star a b v : star_free a -> star_free b -> matches [a +:+ "*" +:+ b] v = true <-> starts_with v a /\ ends_with v b.
Proof.
  intros Ha Hb. rewrite matches_spec. unfold some_accepts. setoid_rewrite elem_of_list_singleton. rewrite <-(accepts_star _ a b v eq_refl Ha Hb).
  split; [by intros (? & -> & ?)|]. intros H. eexists. by split.
Qed.
Lemma no_star p v : star_free p -> matches [p] v = true <-> v = p.
Proof.
  intros Hp. rewrite matches_spec. unfold some_accepts. setoid_rewrite elem_of_list_singleton. split.
  - intros (? & -> & H). by apply accepts_no_star in H.
  - intros ->. exists p. split; [done|by left].
Qed.

(** ** Consequences *)
Section more.
Context {T : Type} (dec : T -> option (list rule)) (enc : list rule -> T).
Hypothesis Hrt : forall l, dec (enc l) = Some l.
Lemma authorize_mono c c' (q q' : request T) : q_user q = Some (user_of_claims enc c) -> q_user q' = Some (user_of_claims enc c') ->
  q_resource_request q = true -> q_resource_request q' = true -> q_verb q = q_verb q' -> q_group q = q_group q' -> q_resource q = q_resource q' ->
  q_name q = q_name q' -> q_namespace q = q_namespace q' ->
  (c_namespaces c = c_namespaces c' \/ c_namespaces c <> [] /\ c_namespaces c ⊆ c_namespaces c') ->
  (c_rules c = c_rules c' \/ c_rules c <> [] /\ c_rules c ⊆ c_rules c') ->
  authorize dec q = true -> authorize dec q' = true.
Proof.
  intros U U' R R' E1 E2 E3 E4 E5 HN HR. rewrite (claims_spec dec enc c q Hrt U R), (claims_spec dec enc c' q' Hrt U' R').
  rewrite E1, E2, E3, E4, E5. intros [A B]. split.
  - destruct HN as [<-|[? ?]]; [done|]. by eapply admits_mono.
  - destruct HR as [<-|[? ?]]; [done|]. by eapply permits_mono.
Qed.
Lemma confined c (q : request T) : q_user q = Some (user_of_claims enc c) -> q_resource_request q = true ->
  c_namespaces c <> [] -> "*"%string ∉ c_namespaces c -> authorize dec q = true -> q_namespace q <> ""%string /\ q_namespace q ∈ c_namespaces c.
Proof.
  intros U R Hn Hs H. apply (claims_spec dec enc c q Hrt U R) in H as [[?|[?|?]] _]; done.
Qed.
Lemma no_rules c (q : request T) : q_user q = Some (user_of_claims enc c) -> q_resource_request q = true -> c_namespaces c = [] -> c_rules c = [] ->
  authorize dec q = true.
Proof. intros U R Hn Hr. apply (claims_spec dec enc c q Hrt U R). split; by left. Qed.
End more.
