(** Properties C47 and C48: retries out of order, and concurrent workers. *)
From Verif Require Import JsonModel ObjModel ZSetModel OpsModel ExecModel PipelineModel ReconcilerModel ZSetSpec OpsSpec GatherSpec ExecSpec JsonSpec CleanSpec PipelineSpec CrewSpec.
From Verif Require Import ZSetProofs2 ConvertProofs TargetProofs PipeProofs PipeProofs2 PipeProofs3 PipeProofs4 CrewProofs QueueProofs TestPipe PropsPipeline.

(** ** C47 *)

(** Refuted: when an event [d1] is processed again after a newer event [d2] of
    the same object, the target is what the pipeline computes from the objects
    before [d2]; nothing later corrects it. *)
Theorem C47_stale_retry_refuted {FF : FloatFmt} : forall sortv target sources join ps g p o ds d1 d2 p' outs,
  fmt_ok -> fmt_inj -> gvk_ok target -> sources <> [] -> NoDup (map gvk_kind sources) ->
  forallb (user_op (DD := json_docs_on clean)) ps = true -> Forall op_ok ps -> (forall jev, join = Some jev -> jev_ok jev) ->
  pipe_new clean target sources join ps = Some p -> pipeline_graph (map gvk_kind sources) join ps = Some g ->
  order_ok o -> history_ok clean sources ∅ (ds ++ [d1; d2; d1]) ->
  pipe_run clean sortv o 0 p (ds ++ [d1; d2; d1]) = (p', map Some outs) ->
  (forall pre post acc B, ds ++ [d1; d2; d1] = pre ++ post -> inputs_of clean (after pre) (map gvk_kind sources) acc ->
     exec_scratch sortv g acc B -> functional clean B) ->
  source_id (d_obj d1) = source_id (d_obj d2) -> d_type d1 <> Deleted ->
  exists acc B, inputs_of clean (after (ds ++ [d1])) (map gvk_kind sources) acc /\ exec_scratch sortv g acc B
    /\ shows clean target B (apply_ops no_objects (concat outs)).
Proof. exact (fun sortv target sources join ps g p o ds d1 d2 p' outs Hf Hi => stale_retry clean sortv target sources join ps g p o ds d1 d2 p' outs (exact_clean Hf Hi)). Qed.
Print Assumptions C47_stale_retry_refuted.

(** The work queue does process events in that order: the pod is created "on",
    the event that makes it "busy" fails to be written and goes to the end of
    the queue, behind the event that makes it "on" again. The target stays
    "busy". *)
Definition ex_queue (wrs : list (contents -> delta -> option contents)) : option (option json * list string) :=
  (fun p =>
     let '(p', T, q) := queue_run clean ex_sort std_order 0 (p, no_objects, [Delta Added (pod "a" "on"); Delta Updated (pod "a" "busy"); Delta Updated (pod "a" "on")]) wrs in
     (m ← T ("default", "a")%string; mget m "phase", map (fun d => get_name (d_obj d)) q)) <$> pipe_new clean tgt_gvk [pod_gvk] None ex_ps.
Example ex_C47 :
  history_ok clean [pod_gvk] ∅ ([Delta Added (pod "a" "on")] ++ [Delta Updated (pod "a" "busy"); Delta Updated (pod "a" "on"); Delta Updated (pod "a" "busy")])
  /\ source_id (pod "a" "busy") = source_id (pod "a" "on")
  /\ ex_queue [write_ok; write_ok; write_ok] = Some (Some (JStr "on"), [])
  /\ ex_queue [write_ok; write_fails; write_ok] = Some (Some (JStr "on"), ["a"%string])
  /\ ex_queue [write_ok; write_fails; write_ok; write_ok] = Some (Some (JStr "busy"), []).
Proof. split; [repeat (split; [event|]); exact I|]. split; [reflexivity|]. repeat split; vm_compute; reflexivity. Qed.

(** What does hold of the work queue, for every behaviour of the target: each
    waiting request is tried in turn before any is tried a second time, and a
    request leaves the queue exactly when it was processed successfully. *)
Theorem C47_kept_partial {FF : FloatFmt} : forall P sortv W o (st : pipe P * W) q wrs st' q',
  queue_run P sortv o 0 (st, q) wrs = (st', q') ->
  exists tried oks, inc_run P sortv o 0 st tried = (st', oks)
    /\ map snd tried `prefix_of` wrs /\ (q' = [] \/ map snd tried = wrs)
    /\ take (length q) (map fst tried) = take (length tried) q
    /\ Permutation q (succeeded (zip (map fst tried) oks) ++ q').
Proof. exact (fun P sortv W o st q wrs st' q' => queue_kept P sortv o wrs 0 st q st' q'). Qed.
Print Assumptions C47_kept_partial.
(** So without failures the requests are processed in the order of their arrival. *)
Theorem C47_in_order_partial {FF : FloatFmt} : forall P sortv W o (st : pipe P * W) q wrs st' oks,
  length wrs = length q -> inc_run P sortv o 0 st (zip q wrs) = (st', oks) -> Forall (eq true) oks ->
  queue_run P sortv o 0 (st, q) wrs = (st', []).
Proof. exact (fun P sortv W o st q wrs => queue_in_order P sortv o q wrs 0 st). Qed.
Print Assumptions C47_in_order_partial.
(** Three requests, the second of which fails once: what is tried, and how it ends. *)
Definition ex_tried (wrs : list (contents -> delta -> option contents)) : option (list bool) :=
  (fun p => (inc_run clean ex_sort std_order 0 (p, no_objects) (zip [Delta Added (pod "a" "on"); Delta Updated (pod "a" "busy"); Delta Updated (pod "a" "on"); Delta Updated (pod "a" "busy")] wrs)).2)
  <$> pipe_new clean tgt_gvk [pod_gvk] None ex_ps.
Example ex_C47_kept : ex_tried [write_ok; write_fails; write_ok; write_ok] = Some [true; false; true; true]
  /\ ex_tried [write_ok; write_ok; write_ok] = Some [true; true; true].
Proof. split; vm_compute; reflexivity. Qed.

(** ** C48 *)

(** One worker (a controller with one source): in every schedule that ends with
    nothing left to write, the target has received the operations in the order
    in which the events were evaluated. *)
Theorem C48_one_worker {FF : FloatFmt} : forall P sortv o l p c outs,
  crew_run P sortv apply_op o 0 (Crew P p no_objects [[]]) l = Some c -> idle (w_pending P c) ->
  (pipe_run P sortv o 0 p (evaluated l)).2 = map Some outs ->
  w_pipe P c = (pipe_run P sortv o 0 p (evaluated l)).1 /\ forall x, w_target P c x = apply_ops no_objects (concat outs) x.
Proof. exact one_worker_ok. Qed.
Print Assumptions C48_one_worker.

(** Any number of workers, as long as no two of them have writes to the same
    object under way. *)
Theorem C48_workers_partial {FF : FloatFmt} : forall P sortv o k l p c outs,
  crew_run P sortv apply_op o 0 (Crew P p no_objects (replicate k [])) l = Some c ->
  (forall l1 l2 c1, l = l1 ++ l2 -> crew_run P sortv apply_op o 0 (Crew P p no_objects (replicate k [])) l1 = Some c1 -> apart (w_pending P c1)) ->
  idle (w_pending P c) -> (pipe_run P sortv o 0 p (evaluated l)).2 = map Some outs ->
  w_pipe P c = (pipe_run P sortv o 0 p (evaluated l)).1 /\ forall x, w_target P c x = apply_ops no_objects (concat outs) x.
Proof. exact apart_ok. Qed.
Print Assumptions C48_workers_partial.

Definition crew_end (l : list wstep) : option (bool * bool * list (list (dtype * string))) :=
  p ← pipe_new clean tgt_gvk [pod_gvk; svc_gvk] (Some jev_phase) [];
  c ← crew_run clean ex_sort apply_op std_order 0 (Crew clean p no_objects [[]; []]) l;
  let w := w_target clean c ("default", "a")%string in
  let h := held (p_tgt clean (w_pipe clean c)) ("default", "a")%string in
  Some (bool_decide (w <> None), bool_decide (h <> None), map (map (fun d => (d_type d, get_name (d_obj d)))) (w_pending clean c)).
(** Pods are handled by worker 0, services by worker 1. *)
Definition ex_serial : list wstep :=
  [WEval 0 (Delta Added (pod "a" "on")); WEval 1 (Delta Added (svc "s" "on")); WWrite 1; WEval 0 (Delta Updated (pod "a" "off")); WWrite 0].
Definition ex_overlap : list wstep :=
  [WEval 0 (Delta Added (pod "a" "on")); WEval 1 (Delta Added (svc "s" "on")); WEval 0 (Delta Updated (pod "a" "off")); WWrite 0; WWrite 1].

(** Refuted for two workers: the upsert that worker 1 evaluated first reaches
    the target after the deletion that worker 0 evaluated next. The target
    then holds "a" although the pipeline has deleted it. *)
Theorem C48_order_refuted :
  evaluated ex_serial = evaluated ex_overlap
  /\ crew_end (take 2 ex_overlap) = Some (false, true, [[]; [(Upserted, "a"%string)]])
  /\ crew_end (take 3 ex_overlap) = Some (false, false, [[(Deleted, "a"%string)]; [(Upserted, "a"%string)]])
  /\ crew_end ex_serial = Some (false, false, [[]; []])
  /\ crew_end ex_overlap = Some (true, false, [[]; []]).
Proof. repeat split; vm_compute; reflexivity. Qed.
Print Assumptions C48_order_refuted.

(** The hypotheses of [C48_workers_partial] hold of the serial schedule. *)
Example ex_C48 : crew_end (take 1 ex_serial) = Some (false, false, [[]; []])
  /\ crew_end (take 2 ex_serial) = Some (false, true, [[]; [(Upserted, "a"%string)]])
  /\ crew_end (take 3 ex_serial) = Some (true, true, [[]; []])
  /\ crew_end (take 4 ex_serial) = Some (true, false, [[(Deleted, "a"%string)]; []])
  /\ run_names [pod_gvk; svc_gvk] (Some jev_phase) [] (evaluated ex_serial)
     = Some [Some []; Some [(Upserted, "a"%string)]; Some [(Deleted, "a"%string)]].
Proof. repeat split; vm_compute; reflexivity. Qed.
