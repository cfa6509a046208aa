(** Independent specification vocabulary for Z-sets.  A Z-set is understood
    through one observation only: the multiplicity of each document identity. *)
From Verif Require Import ZSetModel.

Section spec.
Context {DD : Docs}.

(** Multiplicity of an identity. *)
Definition zcount (z : zset) (k : ident) : Z := default 0 (counts z !! k).

(** Two Z-sets are the same multiset. *)
Definition zeq (a b : zset) : Prop := forall k, zcount a k = zcount b k.

(** The integrity conditions of the representation. *)
Record zwf (z : zset) : Prop := {
  wf_dom  : dom (docs z) = dom (counts z);
  wf_nz   : forall k c, counts z !! k = Some c -> c <> 0;
  wf_key  : forall k d, docs z !! k = Some d -> key d = Some k }.

(** Z-sets a client can build through the public interface, with any iteration
    order at every step. *)
Inductive reachable : zset -> Prop :=
  | r_empty : reachable zempty
  | r_adddoc z d c z' : reachable z -> add_doc z d c = Some z' -> reachable z'
  | r_adddoc_copy z d c z' : reachable z -> add_doc_copy z d c = Some z' -> reachable z'
  | r_add o a b z' : order_ok o -> reachable a -> reachable b -> zadd o a b = Some z' -> reachable z'
  | r_sub o a b z' : order_ok o -> reachable a -> reachable b -> zsub o a b = Some z' -> reachable z'
  | r_distinct o a z' : order_ok o -> reachable a -> zdistinct o a = Some z' -> reachable z'
  | r_unique o a z' : order_ok o -> reachable a -> zunique o a = Some z' -> reachable z'
  | r_deep a : reachable a -> reachable (deep_copy a)
  | r_shallow a : reachable a -> reachable (shallow_copy a)
  | r_singleton d z' : zsingleton d = Some z' -> reachable z'
  | r_from_docs ds z' : zfrom_docs ds = Some z' -> reachable z'.

(** Sum over a list. *)
Fixpoint lsum {A} (f : A -> Z) (l : list A) : Z :=
  match l with [] => 0 | x :: l => f x + lsum f l end.

(** Number of documents of [ds] with identity [k]. *)
Definition occ (k : ident) (ds : list doc) : Z :=
  lsum (fun d => if decide (key d = Some k) then 1 else 0) ds.

(** Total weight of identity [k] in a list of weighted documents. *)
Definition esum (es : list (doc * Z)) (k : ident) : Z :=
  lsum (fun e => if decide (key e.1 = Some k) then e.2 else 0) es.

(** Weighted sum of a function of documents. *)
Definition wsum (g : doc -> Z) (es : list (doc * Z)) : Z :=
  lsum (fun e => e.2 * g e.1) es.

(** The two results of a fallible operation are the same: both failed, or both
    succeeded with the same multiset. *)
Definition res_eq (a b : option zset) : Prop :=
  match a, b with
  | None, None => True
  | Some x, Some y => zeq x y
  | _, _ => False
  end.

(** All observers of a Z-set agree with GetMultiplicity ([zmult]). *)
Definition observers_agree (o : order) (z : zset) : Prop :=
  exists es ds us,
    zlist o z = Some es /\ zdocuments o z = Some ds /\ zunique_documents o z = Some us
    (* List: each document once, with its own non-zero multiplicity, none missing *)
    /\ NoDup (map (fun e => key e.1) es)
    /\ (forall d c, In (d, c) es -> zmult z d = Some c /\ c <> 0)
    /\ (forall d c, zmult z d = Some c -> c <> 0 -> exists d', In (d', c) es /\ key d' = key d)
    (* GetDocuments repeats each document max(multiplicity, 0) times *)
    /\ (forall d k m, key d = Some k -> zmult z d = Some m -> occ k ds = Z.max 0 m)
    /\ (forall d, In d ds -> exists m, zmult z d = Some m /\ 0 < m)
    (* GetUniqueDocuments lists the positive ones once *)
    /\ NoDup (map key us)
    /\ (forall d, In d us -> exists m, zmult z d = Some m /\ 0 < m)
    /\ (forall d m, zmult z d = Some m -> 0 < m -> exists d', In d' us /\ key d' = key d)
    (* sizes *)
    /\ zsize o z = Z.of_nat (length ds)
    /\ ztotal_size o z = lsum (fun e => Z.abs e.2) es
    /\ zunique_count o z = Z.of_nat (length us)
    (* emptiness and membership *)
    /\ (zis_zero z = true <-> forall d m, zmult z d = Some m -> m = 0)
    /\ (forall d (b : bool), zcontains z d = Some b <-> exists m, zmult z d = Some m /\ b = (0 <? m)).

(** Same multiplicity for every document. *)
Definition same_mult (a b : zset) : Prop := forall d, zmult a d = zmult b d.

End spec.
