(** Property C51: declared pipelines whose expressions succeed on the objects that
    reach them never fail. *)
From Verif Require Import JsonModel ObjModel ZSetModel OpsModel ExecModel PipelineModel ValueModel PipeJsonModel StageModel.
From Verif Require Import ExprSpec ZSetSpec OpsSpec ExecSpec JsonSpec CleanSpec PipelineSpec StageSpec StageRunSpec ZSetProofs2 PipeProofs2 StageProofs StageNames StageClean StageRunProofs TestExpr TestPipe TestStage PropsPipeline PropsStage.
#[local] Open Scope Z_scope.

(** No event of any history fails, and after each history the target holds what the
    stages yield for the current source objects.  [runs_on] speaks of single objects
    and expressions only: what may come out of one stage must be digestible for the
    next one.
    Missing from the full statement: the stages must yield at most one object for each name and stay within clean documents.
    [ex_C51_runs] in PropsExample meets the hypotheses. *)
Theorem C51_runs_partial : forall (FF : FloatFmt) (EE : ExprEnv) sortv target sources p pp o ds Qk Q',
  fmt_ok -> fmt_inj -> (forall l, Permutation (sortv l) l) -> gvk_ok target -> sources <> [] -> NoDup (map gvk_kind sources) ->
  Forall (fun s => utf8_ok (gvk_kind s) = true) sources ->
  Forall stage_clean p -> declare clean target sources p = Some pp -> order_ok o -> history_ok clean sources ∅ ds ->
  events_on Qk ds -> runs_on sources Qk p Q' ->
  (forall pre post R, ds = pre ++ post -> yields sortv sources p (after pre) R -> one_per_name R) ->
  exists p' outs R, pipe_run clean sortv o 0 pp ds = (p', map Some outs) /\ yields sortv sources p (after ds) R
    /\ forall i m, apply_ops no_objects (concat outs) i = Some m <-> exists d, In d R /\ doc_id d = Some i /\ m = encapsulate target d i.1 i.2.
Proof.
  intros FF EE sortv target sources p pp o ds Qk Q' F1 F2 HS Ht Hs ND HU HC HD Ho HH HE HR HN.
  destruct (c51_runs (exact_clean F1 F2) sortv HS target sources p pp o ds Qk Q') as (p' & outs & Hrun); [done..|].
  destruct (C51_meaning_partial FF EE sortv target sources p pp o ds p' outs) as (R & HY & HT); [done..|]. by exists p', outs, R.
Qed.
Print Assumptions C51_runs_partial.
