(** Model of pkg/dbsp/zset.go and pkg/dbsp/document.go (identity only).

    Simplifications, valid for the whole file:
    - Documents are opaque; [key] stands for computeJSONKey
      (pkg/dbsp/document.go:14-27), [None] being a marshalling error.  A concrete
      [key] is given in JsonModel.v.
    - Go [int] multiplicities are unbounded integers (no 64-bit wrap-around).
    - Deep copies are the identity on values; aliasing is not modelled.
    - A Go [range] over a map visits the entries in the order given by an
      [order] oracle; see below. *)
From stdpp Require Export gmap list sorting.
From Coq Require Export ZArith Lia.
#[global] Open Scope Z_scope.

(** Documents with an identity. *)
Class Docs := mkDocs {
  doc : Type;
  ident : Type;
  ident_eq : EqDecision ident;
  ident_cnt : Countable ident;
  key : doc -> option ident;   (* pkg/dbsp/document.go:14-27 computeJSONKey *)
  val : Type;                  (* Go [any] values held in documents; nil is [None] of [option val] *)
  vjson : val -> option ident  (* pkg/dbsp/document.go:116-123 computeJSONAny *)
}.
#[global] Existing Instance ident_eq.
#[global] Existing Instance ident_cnt.

Section zset.
Context {DD : Docs}.

(** pkg/dbsp/zset.go:9-13 DocumentZSet. *)
Record zset := ZSet { docs : gmap ident doc; counts : gmap ident Z }.

(** pkg/dbsp/zset.go:34-39 NewDocumentZSet. *)
Definition zempty : zset := ZSet ∅ ∅.

(** The iteration order of Go maps.  [o V p m] is the order in which the loop
    execution identified by the path [p] visits the map [m]. *)
Definition order := forall V : Type, list nat -> gmap ident V -> list (ident * V).
Definition order_ok (o : order) : Prop := forall V p (m : gmap ident V), Permutation (o V p m) (map_to_list m).
(** The sub-oracle for the [n]-th inner loop. *)
Definition osub (o : order) (n : nat) : order := fun V p => o V (n :: p).
Definition std_order : order := fun V _ m => map_to_list m.

(** pkg/dbsp/zset.go:51-74 AddDocumentMutate. *)
Definition add_doc (z : zset) (d : doc) (c : Z) : option zset :=
  if c =? 0 then Some z else
  match key d with
  | None => None
  | Some k =>
    let '(ds, cs) :=
      match counts z !! k with
      | Some c0 => (docs z, <[k := c0 + c]> (counts z))
      | None => (<[k := d]> (docs z), <[k := c]> (counts z))
      end in
    if default 0 (cs !! k) =? 0
    then Some (ZSet (delete k ds) (delete k cs))
    else Some (ZSet ds cs)
  end.

(** pkg/dbsp/zset.go:170-182 DeepCopy: iterates [docs], copying the count that
    the [counts] map holds for the key (0 if missing). *)
Definition deep_copy (z : zset) : zset :=
  ZSet (docs z) (map_imap (fun k _ => Some (default 0 (counts z !! k))) (docs z)).

(** pkg/dbsp/zset.go:151-167 ShallowCopy. *)
Definition shallow_copy (z : zset) : zset := ZSet (docs z) (counts z).

(** pkg/dbsp/zset.go:43-47 AddDocument (non-mutating). *)
Definition add_doc_copy (z : zset) (d : doc) (c : Z) : option zset :=
  add_doc (shallow_copy z) d c.

(** [for key, c := range z.counts { doc := z.docs[key]; ... }], the loop header
    shared by all operations.  A key of [counts] missing from [docs] would give
    a nil document in Go; it is an error here, and C02 shows it never occurs. *)
Definition entries (o : order) (z : zset) : option (list (doc * Z)) :=
  mapM (fun '(k, c) => (fun d => (d, c)) <$> docs z !! k) (o Z [] (counts z)).

(** Loop body used by all operations: add each document with its count. *)
Fixpoint add_all (z : zset) (es : list (doc * Z)) : option zset :=
  match es with
  | [] => Some z
  | (d, c) :: es => z' ← add_doc z d c; add_all z' es
  end.

(** pkg/dbsp/zset.go:77-93 Add (non-nil argument). *)
Definition zadd (o : order) (a b : zset) : option zset :=
  es ← entries o b; add_all (deep_copy a) es.

(** pkg/dbsp/zset.go:77-80 Add with a possibly nil argument. *)
Definition zadd_ptr (o : order) (a : zset) (b : option zset) : option zset :=
  match b with None => Some (deep_copy a) | Some b => zadd o a b end.

(** pkg/dbsp/zset.go:96-112 Subtract (non-nil argument). *)
Definition zsub (o : order) (a b : zset) : option zset :=
  es ← entries o b; add_all (deep_copy a) (map (fun '(d, c) => (d, - c)) es).

(** pkg/dbsp/zset.go:96-99 Subtract with a possibly nil argument. *)
Definition zsub_ptr (o : order) (a : zset) (b : option zset) : option zset :=
  match b with None => Some (deep_copy a) | Some b => zsub o a b end.

(** pkg/dbsp/zset.go:116-130 Distinct. *)
Definition zdistinct (o : order) (z : zset) : option zset :=
  es ← entries o z;
  add_all zempty (map (fun '(d, _) => (d, 1)) (List.filter (fun '(_, c) => 0 <? c) es)).

(** pkg/dbsp/zset.go:133-148 Unique. *)
Definition zunique (o : order) (z : zset) : option zset :=
  es ← entries o z;
  add_all zempty (map (fun '(d, c) => (d, if c <? 0 then -1 else 1)) es).

(** pkg/dbsp/zset.go:191-202 List. *)
Definition zlist (o : order) (z : zset) : option (list (doc * Z)) := entries o z.

(** pkg/dbsp/zset.go:206-221 GetDocuments. *)
Definition zdocuments (o : order) (z : zset) : option (list doc) :=
  es ← entries o z;
  Some (flat_map (fun '(d, c) => if c <=? 0 then [] else repeat d (Z.to_nat c)) es).

(** pkg/dbsp/zset.go:224-235 GetUniqueDocuments. *)
Definition zunique_documents (o : order) (z : zset) : option (list doc) :=
  es ← entries o z;
  Some (flat_map (fun '(d, c) => if 0 <? c then [d] else []) es).

(** pkg/dbsp/zset.go:238-240 IsZero. *)
Definition zis_zero (z : zset) : bool := bool_decide (counts z = ∅).

(** pkg/dbsp/zset.go:243-251 Size. *)
Definition zsize (o : order) (z : zset) : Z :=
  fold_left (fun t '(_, c) => if 0 <? c then t + c else t) (o Z [] (counts z)) 0.

(** pkg/dbsp/zset.go:254-264 TotalSize. *)
Definition ztotal_size (o : order) (z : zset) : Z :=
  fold_left (fun t '(_, c) => if 0 <? c then t + c else t + (- c)) (o Z [] (counts z)) 0.

(** pkg/dbsp/zset.go:267-275 UniqueCount. *)
Definition zunique_count (o : order) (z : zset) : Z :=
  fold_left (fun t '(_, c) => if 0 <? c then t + 1 else t) (o Z [] (counts z)) 0.

(** pkg/dbsp/zset.go:278-289 GetMultiplicity. *)
Definition zmult (z : zset) (d : doc) : option Z :=
  k ← key d; Some (default 0 (counts z !! k)).

(** pkg/dbsp/zset.go:292-298 Contains. *)
Definition zcontains (z : zset) (d : doc) : option bool :=
  m ← zmult z d; Some (0 <? m).

(** pkg/dbsp/zset.go:323-326 SingletonZSet. *)
Definition zsingleton (d : doc) : option zset := add_doc_copy zempty d 1.

(** pkg/dbsp/zset.go:329-341 FromDocuments. *)
Fixpoint zfrom_docs_loop (z : zset) (ds : list doc) : option zset :=
  match ds with
  | [] => Some z
  | d :: ds => z' ← add_doc_copy z d 1; zfrom_docs_loop z' ds
  end.
Definition zfrom_docs (ds : list doc) : option zset := zfrom_docs_loop zempty ds.

(** pkg/dbsp/document.go:68-80 DeepEqual. *)
Definition doc_deep_equal (a b : doc) : option bool :=
  ka ← key a; kb ← key b; Some (bool_decide (ka = kb)).

End zset.
