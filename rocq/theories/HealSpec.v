(** Specification vocabulary for the repair of targets. *)
From Verif Require Import PipelineModel ZSetSpec OpsSpec GatherSpec ExecSpec JsonSpec CleanSpec PipelineSpec.

Section spec.
Context {FF : FloatFmt}.
Variable P : jobj -> bool.
#[local] Hint Extern 0 Docs => exact (json_docs_on P) : typeclass_instances.
(** The result has a document for object [i]. *)
Definition in_result (B : zset) (i : oname) (d : jobj) : Prop := exists k, docs B !! k = Some d /\ doc_id d = Some i.
(** What the controller remembers about object [i] is the document of the result, or it
    remembers nothing and the result has nothing. *)
Definition remembered (memory : contents) (B : zset) (i : oname) : Prop :=
  match memory i with Some m => in_result B i m | None => ~ exists d, in_result B i d end.
(** No document of the result already is an object of the target kind. *)
Definition unstamped (target : gvk) (B : zset) : Prop := forall i d, in_result B i d -> encapsulate target d i.1 i.2 <> d.
End spec.
