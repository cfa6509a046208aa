(** Specification vocabulary for sorting gathered values. *)
From Verif Require Import JsonModel SortModel.
Section spec.
Context {FF : FloatFmt}.
(** [l'] is sorted: no element compares greater than its right neighbour. *)
Definition cmp_sorted (l : list json) : Prop := Sorted (fun a b => sort_cmp a b <> Gt) l.
(** What any correct sorting routine guarantees when the comparison is a total
    preorder on the elements of the list. *)
Definition cmp_order_on (l : list json) : Prop :=
  forall a b c, a ∈ l -> b ∈ l -> c ∈ l ->
    sort_cmp b a = CompOpp (sort_cmp a b) /\ (sort_cmp a b <> Gt -> sort_cmp b c <> Gt -> sort_cmp a c <> Gt).
Definition is_sort (sortv : list json -> list json) : Prop :=
  forall l, Permutation (sortv l) l /\ (cmp_order_on l -> cmp_sorted (sortv l)).
(** All integers, or all strings. *)
Definition homogeneous (l : list json) : Prop :=
  (forall v, v ∈ l -> exists n, v = JInt n) \/ (forall v, v ∈ l -> exists s, v = JStr s).
End spec.
