(** Proofs about sorting gathered values. *)
From Verif Require Import JsonModel JsonSpec JsonProofs SortModel SortSpec.

Section sort.
Context {FF : FloatFmt}.

Definition sle (a b : string) : Prop := scmp a b <> Gt.
Lemma sle_trans : Transitive sle.
Proof.
  intros a b c. unfold sle. intros H1 H2.
  destruct (scmp a b) eqn:E1; [apply scmp_eq in E1; by subst| |done].
  destruct (scmp b c) eqn:E2; [apply scmp_eq in E2; subst; congruence| |done].
  assert (E3 : slt a c) by (by eapply slt_trans). unfold slt in E3. congruence.
Qed.
Lemma sle_antisym : AntiSymm (=) sle.
Proof.
  intros a b. unfold sle. rewrite (scmp_antisym a b). destruct (scmp a b) eqn:E; simpl; try done.
  intros _ _. by apply scmp_eq.
Qed.

Lemma Sorted_map_inj {A B} (f : A -> B) (R : B -> B -> Prop) (S : A -> A -> Prop) l :
  (forall a b, R (f a) (f b) -> S a b) -> Sorted R (map f l) -> Sorted S l.
Proof.
  intros H. induction l as [|a l IH]; simpl; [constructor|]. intros HS. inversion HS as [|? ? Hs Hd]; subst.
  constructor; [by apply IH|]. destruct l; simpl in *; [constructor|]. inversion Hd; subst. constructor. auto.
Qed.
Lemma all_map {A} (f : A -> json) l : (forall v, v ∈ l -> exists a, v = f a) -> exists l', l = map f l'.
Proof.
  induction l as [|v l IH]; intros H; [by exists []|].
  destruct (H v) as [a ->]; [by apply elem_of_list_here|].
  destruct IH as [l' ->]; [intros w Hw; apply H; by apply elem_of_list_further|]. by exists (a :: l').
Qed.

Lemma homogeneous_order l : homogeneous l -> cmp_order_on l.
Proof.
  intros [H|H] a b c Ha Hb Hc; destruct (H a Ha) as [x ->], (H b Hb) as [y ->], (H c Hc) as [z ->]; simpl.
  - split; [apply Z.compare_antisym|]. rewrite !Z.compare_le_iff. lia.
  - split; [apply scmp_antisym|]. apply sle_trans.
Qed.

Lemma sort_homogeneous s1 s2 l l' :
  is_sort s1 -> is_sort s2 -> homogeneous l -> Permutation l l' -> s1 l = s2 l'.
Proof.
  intros H1 H2 Hh P.
  assert (Hh' : homogeneous l').
  { destruct Hh as [H|H]; [left|right]; intros v Hv; apply H; by rewrite P. }
  destruct (H1 l) as [P1 S1], (H2 l') as [P2 S2].
  specialize (S1 (homogeneous_order _ Hh)). specialize (S2 (homogeneous_order _ Hh')).
  assert (PP : Permutation (s1 l) (s2 l')) by (by rewrite P1, P2).
  assert (Hs1 : homogeneous (s1 l)).
  { destruct Hh as [H|H]; [left|right]; intros v Hv; apply H; by rewrite <-P1. }
  destruct Hs1 as [H|H]; apply all_map in H as [l1 E1].
  - rewrite E1 in PP, S1. symmetry in PP. apply Permutation_map_inv in PP as (l2 & E2 & P').
    rewrite E2 in S2. rewrite E1, E2. f_equal. apply (Sorted_unique Z.le); [| |done].
    + eapply Sorted_map_inj; [|exact S1]. intros a b. simpl. by rewrite Z.compare_le_iff.
    + eapply Sorted_map_inj; [|exact S2]. intros a b. simpl. by rewrite Z.compare_le_iff.
  - rewrite E1 in PP, S1. symmetry in PP. apply Permutation_map_inv in PP as (l2 & E2 & P').
    rewrite E2 in S2. rewrite E1, E2. f_equal.
    pose proof sle_trans. pose proof sle_antisym.
    apply (Sorted_unique sle); [| |done].
    + eapply Sorted_map_inj; [|exact S1]. done.
    + eapply Sorted_map_inj; [|exact S2]. done.
Qed.

(** Insertion sort is a correct sorting routine. *)
Lemma insert_left_perm x l : Permutation (insert_left x l) (x :: l).
Proof.
  induction l as [|y l IH]; simpl; [done|]. destruct (sort_cmp x y); try done.
  rewrite IH. by apply perm_swap.
Qed.
Lemma sort_small_perm l : Permutation (sort_small l) l.
Proof.
  unfold sort_small. rewrite <-Permutation_rev.
  assert (G : forall acc, Permutation (foldl (fun acc x => insert_left x acc) acc l) (acc ++ l)).
  { induction l as [|x l IH]; intros acc; simpl; [by rewrite app_nil_r|].
    rewrite IH, insert_left_perm. simpl. apply Permutation_middle. }
  apply (G []).
Qed.
Definition ge_sorted := Sorted (fun a b => sort_cmp b a <> Gt).
Lemma insert_left_sorted x l :
  (forall y, y ∈ l -> sort_cmp y x = CompOpp (sort_cmp x y)) -> ge_sorted l -> ge_sorted (insert_left x l).
Proof.
  intros Hx HS. induction HS as [|y l HS IH Hd]; simpl; [constructor; constructor|].
  assert (Hy : sort_cmp y x = CompOpp (sort_cmp x y)) by (apply Hx, elem_of_list_here).
  destruct (sort_cmp x y) eqn:E; simpl in Hy.
  - constructor; [by constructor|]. constructor. congruence.
  - constructor; [apply IH; intros z Hz; apply Hx; by apply elem_of_list_further|].
    destruct l as [|z l]; simpl; [constructor; congruence|]. destruct (sort_cmp x z); constructor; try congruence.
    inversion Hd; by subst.
  - constructor; [by constructor|]. constructor. congruence.
Qed.
Lemma Sorted_rev l : ge_sorted l -> cmp_sorted (rev l).
Proof.
  unfold ge_sorted, cmp_sorted. induction 1 as [|y l HS IH Hd]; simpl; [constructor|].
  destruct l as [|z l]; [repeat constructor|]. simpl in *.
  inversion Hd; subst. revert IH. generalize (rev l) as r. intros r Hr.
  induction r as [|a r IHr]; simpl in *; [repeat constructor; done|].
  inversion Hr as [|? ? Hr1 Hr2]; subst. constructor; [by apply IHr|].
  destruct r; simpl in *; inversion Hr2; by constructor.
Qed.
Lemma sort_small_is_sort : is_sort sort_small.
Proof.
  intros l. split; [apply sort_small_perm|]. intros Ho. apply Sorted_rev.
  assert (G : forall l2 acc, (forall v, v ∈ acc -> v ∈ l) -> (forall v, v ∈ l2 -> v ∈ l) -> ge_sorted acc ->
    ge_sorted (foldl (fun acc x => insert_left x acc) acc l2)).
  { induction l2 as [|x l2 IH]; intros acc Ha Hl Hs; simpl; [done|]. apply IH.
    - intros v. rewrite insert_left_perm. rewrite elem_of_cons. intros [->|?]; [apply Hl, elem_of_list_here|auto].
    - intros v Hv. apply Hl. by apply elem_of_list_further.
    - apply insert_left_sorted; [|done]. intros y Hy.
      assert (Hx : x ∈ l) by apply Hl, elem_of_list_here.
      apply (Ho x y x); auto. }
  apply G; [by intros v ?%elem_of_nil|done|constructor].
Qed.
End sort.
