(** Specification vocabulary for @gather. *)
From Verif Require Import ZSetModel OpsModel ZSetSpec OpsSpec.

Section spec.
Context {DD : Docs}.

(** The group of a document: the JSON of its key value.  [None] if the document
    is ignored (no key value or no value). *)
Definition group_of (kx vx : extractor) (d : doc) : option ident :=
  match kx d, vx d with
  | Some (Some gk), Some (Some _) => vjson gk
  | _, _ => None
  end.
(** The values of group [j] in a list of documents with multiplicities, each
    repeated by its multiplicity. *)
Definition group_values (kx vx : extractor) (j : ident) (es : list (doc * Z)) : list val :=
  flat_map (fun e => if decide (group_of kx vx e.1 = Some j)
                     then match vx e.1 with Some (Some v) => repeat v (Z.to_nat e.2) | _ => [] end
                     else []) es.
(** The list handed to the aggregator: sorted if it has more than one element. *)
Definition agg_values (sortv : list val -> list val) (vs : list val) : list val :=
  match vs with _ :: _ :: _ => sortv vs | vs' => vs' end.
(** No document has a negative multiplicity. *)
Definition nonneg (z : zset) : Prop := forall k, 0 <= zcount z k.

(** Extractors respect document identity. *)
Definition ext_ok (x : extractor) : Prop :=
  forall d1 d2 k, key d1 = Some k -> key d2 = Some k ->
    match x d1, x d2 with
    | None, None => True
    | Some None, Some None => True
    | Some (Some a), Some (Some b) => vjson a = vjson b
    | _, _ => False
    end.
(** Sorting yields a permutation that depends only on the JSON of the values. *)
Definition sort_canon (sortv : list val -> list val) : Prop :=
  (forall l, Permutation (sortv l) l)
  /\ forall l l', Permutation (map vjson l) (map vjson l') -> map vjson (sortv l) = map vjson (sortv l').
(** Documents of the same group that occur in [z] are aggregated to the same
    document. *)
Definition agg_uniform (kx : extractor) (agg : aggregator) (z : zset) : Prop :=
  forall d1 d2 k1 k2 g1 g2 vs1 vs2,
    key d1 = Some k1 -> zcount z k1 <> 0 -> key d2 = Some k2 -> zcount z k2 <> 0 ->
    kx d1 = Some (Some g1) -> kx d2 = Some (Some g2) -> vjson g1 = vjson g2 ->
    map vjson vs1 = map vjson vs2 ->
    match agg d1 g1 vs1, agg d2 g2 vs2 with
    | None, None => True
    | Some x, Some y => key x = key y
    | _, _ => False
    end.
(** The user code of a gather succeeds on the documents of [z]. *)
Definition extracts (kx vx : extractor) (d : doc) : Prop :=
  match kx d with
  | None => False
  | Some None => True
  | Some (Some gk) => match vx d with None => False | Some None => True | Some (Some _) => is_Some (vjson gk) end
  end.

(** The aggregation is the same for all documents of a group, whatever the data. *)
Definition agg_const (kx : extractor) (agg : aggregator) : Prop := forall z, agg_uniform kx agg z.
End spec.
