(** Specification vocabulary for the operators. *)
From Verif Require Import ZSetModel ZSetSpec OpsModel.

Section spec.
Context {DD : Docs}.

(** Sum of [multiplicity * g document] over the documents of a Z-set. *)
Definition zsum (g : doc -> Z) (z : zset) : Z :=
  lsum (fun kd : ident * doc => zcount z kd.1 * g kd.2) (map_to_list (docs z)).

(** What an evaluator yields, errors yielding nothing. *)
Definition ev_out (ev : evaluator) (d : doc) : list doc := default [] (ev d).

(** User code respects document identity: documents with the same JSON are
    treated the same, up to the JSON of the outputs and their order. *)
Definition ev_ok (ev : evaluator) : Prop :=
  forall d1 d2 k, key d1 = Some k -> key d2 = Some k ->
    match ev d1, ev d2 with
    | None, None => True
    | Some l1, Some l2 => Permutation (map key l1) (map key l2)
    | _, _ => False
    end.
(** The documents produced can be encoded as JSON. *)
Definition ev_keyed (ev : evaluator) : Prop :=
  forall d l d', is_Some (key d) -> ev d = Some l -> In d' l -> is_Some (key d').
(** Exactly one output document (as all projections of package pipeline). *)
Definition ev_single (ev : evaluator) : Prop :=
  forall d l, ev d = Some l -> length l = 1%nat.

(** The evaluator succeeds on [d] and all its outputs can be encoded. *)
Definition ev_good (ev : evaluator) (d : doc) : Prop :=
  exists l, ev d = Some l /\ forall d', In d' l -> is_Some (key d').

(** The evaluators that unwind and the fused operators amount to. *)
Definition unwind_ev (ex : list_extractor) (tr : elem_transformer) : evaluator := fun d =>
  ov ← ex d; match ov with None => Some [] | Some vs => mapM (tr d) vs end.
Definition pts_ev (proj sel : evaluator) : evaluator := fun d =>
  ds ← proj d; fss ← mapM sel ds; Some (concat fss).
Definition stp_ev (sel : option evaluator) (pes : list evaluator) : evaluator := fun d =>
  ds ← match sel with Some s => s d | None => Some [d] end; mapM (proj_chain pes) ds.

(** [f] is the linear extension of [ev]: it fails exactly if [ev] fails on some
    document of the input, and otherwise each document contributes its outputs
    with its own multiplicity. *)
Definition linear_ext (f : order -> zset -> option zset) (ev : evaluator) : Prop :=
  forall o z, order_ok o -> zwf z ->
    (is_Some (f o z) <-> forall k d, docs z !! k = Some d -> ev_good ev d)
    /\ forall z', f o z = Some z' ->
         zwf z' /\ forall k, zcount z' k = zsum (fun d => occ k (ev_out ev d)) z.

(** Sum of a finite stream of Z-sets, pointwise. *)
Definition total (zs : list zset) (k : ident) : Z := lsum (fun z => zcount z k) zs.

(** All tuples of a cartesian product with the product of their multiplicities. *)
Fixpoint tuples (inputs : list (list (doc * Z))) : list (list doc * Z) :=
  match inputs with
  | [] => [([], 1)]
  | es :: rest =>
      flat_map (fun e => map (fun t => (e.1 :: t.1, e.2 * t.2)) (tuples rest)) es
  end.
(** The documents of a Z-set with their multiplicities. *)
Definition zents (z : zset) : list (doc * Z) :=
  map (fun kd : ident * doc => (kd.2, zcount z kd.1)) (map_to_list (docs z)).
(** Multiplicity of [k] in the relational join of the inputs. *)
Definition join_mult (jev : join_evaluator) (inputs : list zset) (k : ident) : Z :=
  lsum (fun t => t.2 * occ k (default [] (jev t.1))) (tuples (map zents inputs)).

Definition same_key (d1 d2 : doc) : Prop := exists k, key d1 = Some k /\ key d2 = Some k.
(** Join predicates respect document identity. *)
Definition jev_ok (jev : join_evaluator) : Prop :=
  forall t1 t2, Forall2 same_key t1 t2 ->
    match jev t1, jev t2 with
    | None, None => True
    | Some l1, Some l2 => Permutation (map key l1) (map key l2)
    | _, _ => False
    end.
Definition jev_good (jev : join_evaluator) (t : list doc) : Prop :=
  exists l, jev t = Some l /\ forall d', In d' l -> is_Some (key d').

(** [b] is the result of adding up the stream [zs] with Z-set addition. *)
Definition is_total (b : zset) (zs : list zset) : Prop := zwf b /\ forall k, zcount b k = total zs k.

End spec.
