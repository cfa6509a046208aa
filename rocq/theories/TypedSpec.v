(** Specification vocabulary for pipelines whose stages cannot fail on the documents
    that reach them. *)
From Verif Require Import ZSetModel OpsModel ExecModel OpsSpec.

Section spec.
Context {DD : Docs}.

(** A document that can be encoded and has the property [Q]. *)
Definition fine (Q : doc -> Prop) (d : doc) : Prop := is_Some (key d) /\ Q d.
(** User code that does not fail on documents with [Q] and yields such with [Q']. *)
Definition ev_on (Q Q' : doc -> Prop) (ev : evaluator) : Prop :=
  forall d, fine Q d -> exists l, ev d = Some l /\ Forall (fine Q') l.
Definition op_on (Q Q' : doc -> Prop) (p : op) : Prop :=
  match p with
  | OProject ev => forall d, fine Q d -> exists d', ev d = Some [d'] /\ fine Q' d'
  | OSelect ev => ev_on Q Q' ev
  | OUnwind ex tr => ev_on Q Q' (unwind_ev ex tr)
  | OGather kx vx agg =>
      (forall d, fine Q d -> exists g v, kx d = Some g /\ vx d = Some v /\ forall x, g = Some x -> is_Some (vjson x))
      /\ (forall d g vs, fine Q d -> kx d = Some (Some g) -> Forall (fun v => exists d', fine Q d' /\ vx d' = Some (Some v)) vs ->
            exists r, agg d g vs = Some r /\ fine Q' r)
  | _ => False
  end.
(** One stage after the other. *)
Fixpoint ops_on (Q : doc -> Prop) (ps : list op) (Q' : doc -> Prop) : Prop :=
  match ps with
  | [] => forall d, Q d -> Q' d
  | p :: ps => exists Qm, op_on Q Qm p /\ ops_on Qm ps Q'
  end.
(** A join over the documents of the kinds [kinds], which have the properties [Qk]. *)
Definition jev_on (kinds : list string) (Qk : string -> doc -> Prop) (Q : doc -> Prop) (jev : join_evaluator) : Prop :=
  forall t, Forall2 (fun k d => fine (Qk k) d) kinds t -> exists l, jev t = Some l /\ Forall (fine Q) l.
(** All documents of a Z-set. *)
Definition zall (Q : doc -> Prop) (z : zset) : Prop := forall k d, docs z !! k = Some d -> Q d.

End spec.
