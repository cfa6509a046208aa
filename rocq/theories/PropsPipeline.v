(** Properties C17 to C24: whole pipelines, from source events to operations on
    the target.

    Documents are taken from [clean] (valid UTF-8, floats that do not print like
    integers), where identity is equality; C25 shows what happens outside. *)
From Verif Require Import JsonModel ObjModel ZSetModel OpsModel ExecModel PipelineModel ReconcilerModel ZSetSpec OpsSpec GatherSpec ExecSpec JsonSpec CleanSpec PipelineSpec.
From Verif Require Import ZSetProofs2 ConvertProofs PipeProofs PipeProofs2 PipeProofs3 PipeProofs4 RetryProofs SyncProofs ExecMisc GatherDet TestPipe.

(** ** C17 *)

(** For every history of events: each event is accepted, the source caches hold
    exactly the current objects, and the sum of the Z-sets fed for a Kind holds
    exactly the current objects of that Kind, without view UIDs, each once.
    [P] may accept every document, which is the code as it is.
    Missing from the full statement: events as in [event_ok] only; see below. *)
Theorem C17_mirror_partial {FF : FloatFmt} : forall P sources ds, history_ok P sources ∅ ds ->
  exists src zs, convert_run P ∅ ds = (src, map Some zs) /\ Forall zwf zs /\ mirrors src (after ds)
    /\ forall kd (k : string), fed P kd ds zs k = occ (DD := json_docs_on P) k (of_kind kd (after ds)).
Proof. exact convert_history. Qed.
Print Assumptions C17_mirror_partial.

(** An update that changes nothing feeds nothing. *)
Theorem C17_noop {FF : FloatFmt} : forall P sources ds d, history_ok P sources ∅ (ds ++ [d]) -> d_type d <> Deleted ->
  after ds !! source_id (d_obj d) = Some (stripped (d_obj d)) ->
  exists src zs z, convert_run P ∅ (ds ++ [d]) = (src, map Some (zs ++ [z])) /\ length zs = length ds
    /\ forall k : string, zcount (DD := json_docs_on P) z k = 0.
Proof. exact c17_noop. Qed.
Print Assumptions C17_noop.

(** The deletion of an object that is not there is an error and changes nothing. *)
Theorem C17_unknown {FF : FloatFmt} : forall P sources ds d, history_ok P sources ∅ ds -> plain (obj_id (d_obj d)) -> d_type d = Deleted ->
  after ds !! source_id (d_obj d) = None ->
  exists src zs, convert_run P ∅ (ds ++ [d]) = (src, map Some zs ++ [None]) /\ mirrors src (after ds).
Proof. exact c17_unknown. Qed.
Print Assumptions C17_unknown.

Definition ex_history : list delta :=
  [Delta Added (pod "a" "on"); Delta Upserted (pod "b" "off"); Delta Updated (pod "a" "busy"); Delta Updated (pod "a" "busy");
   Delta Replaced (pod "b" "on"); Delta Deleted (pod "a" "busy")].
Lemma owf_pod n ph : utf8_ok n = true -> utf8_ok ph = true -> clean (pod n ph) = true -> owf (pod n ph).
Proof. intros _ _ H. destruct (proj2 (keyed_clean _) H) as [k Hk]. by eapply (proj2 exact_sci). Qed.
Ltac event := split; [apply owf_pod; vm_compute; reflexivity|]; split; [vm_compute; reflexivity|]; split; [vm_compute; reflexivity|];
  split; [vm_compute; left|]; split; [vm_compute; by eexists|]; split; [split; vm_compute; reflexivity|]; try exact I; vm_compute; reflexivity.
Lemma ex_history_ok : history_ok clean [pod_gvk] ∅ ex_history.
Proof. repeat (split; [event|]). exact I. Qed.
Example ex_C17 : history_ok clean [pod_gvk] ∅ ex_history
  /\ map (fun z => match z with Some z => map (fun kc => kc.2) (map_to_list (counts z)) | None => [] end) (convert_run clean ∅ ex_history).2
     = [[1]; [1]; [1; -1]; []; [-1; 1]; [-1]]
  /\ length (of_kind "Pod" (after ex_history)) = 1%nat.
Proof. split; [exact ex_history_ok|]. split; vm_compute; reflexivity. Qed.

Example ex_C17_unknown : plain (obj_id (pod "a" "on")) /\ after ex_history !! source_id (pod "a" "on") = None.
Proof. split; vm_compute; [split; reflexivity|reflexivity]. Qed.

(** Refuted for other events: a deletion that carries newer content (as watch
    events do) leaves the old content behind with multiplicity 1 and adds the
    new one with multiplicity -1; a repeated addition counts twice. *)
Definition ex_stale : list delta := [Delta Added (pod "a" "on"); Delta Deleted (pod "a" "off")].
Definition ex_twice : list delta := [Delta Added (pod "a" "on"); Delta Added (pod "a" "on")].
Definition all_ok {A} (l : list (option A)) : bool := forallb (fun r => match r with Some _ => true | None => false end) l.
Theorem C17_mirror_refuted :
  (all_ok (convert_run clean ∅ ex_stale).2 = true /\ of_kind "Pod" (after ex_stale) = []
   /\ fed clean "Pod" ex_stale (omap id (convert_run clean ∅ ex_stale).2) (default "" (key (Docs := json_docs_on clean) (pod "a" "on"))) = 1
   /\ fed clean "Pod" ex_stale (omap id (convert_run clean ∅ ex_stale).2) (default "" (key (Docs := json_docs_on clean) (pod "a" "off"))) = -1)
  /\ (all_ok (convert_run clean ∅ ex_twice).2 = true /\ of_kind "Pod" (after ex_twice) = [pod "a" "on"]
   /\ fed clean "Pod" ex_twice (omap id (convert_run clean ∅ ex_twice).2) (default "" (key (Docs := json_docs_on clean) (pod "a" "on"))) = 2).
Proof. split_and!; vm_compute; reflexivity. Qed.
Print Assumptions C17_mirror_refuted.

(** ** C18 *)

(** At most one operation for each name; deletions before upserts; for each name
    the operation is the one of the table [expected_op]; the operations turn the
    old contents of the target cache into the new ones. *)
Theorem C18_reconcile_partial {FF : FloatFmt} : forall P o tgt ds, order_ok o -> Forall raw_delta ds -> Forall (fun d => canonical (d_obj d)) ds ->
  exists tgt' out, reconcile P o tgt ds = (tgt', Some out)
  /\ NoDup (map (fun d => obj_id (d_obj d)) out)
  /\ (exists dels ups, out = dels ++ ups /\ Forall (fun d => d_type d = Deleted) dels /\ Forall (fun d => d_type d = Upserted) ups)
  /\ (forall i d, plain i -> In d out /\ obj_id (d_obj d) = i <-> expected_op (adds_of i ds) (dels_of i ds) (held tgt i) = Some d)
  /\ (forall d, In d out -> plain (obj_id (d_obj d)))
  /\ (forall i, plain i -> held tgt' i = apply_ops (held tgt) out i).
Proof. exact c18_core. Qed.
Print Assumptions C18_reconcile_partial.

Definition ex_deltas : list delta :=
  [Delta Added (pod "a" "on"); Delta Deleted (pod "b" "on"); Delta Deleted (pod "a" "off"); Delta Added (pod "c" "on");
   Delta Deleted (pod "c" "off"); Delta Deleted (pod "d" "on"); Delta Added (pod "e" "on")].
Definition ex_held : store := {[ "default/a"%string := pod "a" "off"; "default/b"%string := pod "b" "on" ]}.
Definition op_names (r : option (list delta)) : option (list (dtype * string)) := (map (fun d => (d_type d, get_name (d_obj d)))) <$> r.
Example ex_C18 : Forall raw_delta ex_deltas /\ Forall (fun d => canonical (d_obj d)) ex_deltas
  /\ op_names (reconcile clean std_order ex_held ex_deltas).2 = Some [(Deleted, "b"%string); (Upserted, "a"%string); (Upserted, "e"%string)].
Proof.
  split; [repeat (apply Forall_cons; split; [split; [vm_compute; auto|split; vm_compute; reflexivity]|]); by apply Forall_nil|].
  split; [repeat (apply Forall_cons; split; [vm_compute; reflexivity|]); by apply Forall_nil|]. vm_compute. reflexivity.
Qed.

(** Refuted for names with '/': the cluster-scoped object "default/b" and the
    object "b" of namespace "default" share a place in the cache. *)
Definition ex_slash : list delta := [Delta Deleted (obj "Pod" "" "default/b" "on")].
Theorem C18_reconcile_refuted :
  op_names (reconcile clean std_order ex_held ex_slash).2 = Some [(Deleted, "default/b"%string)]
  /\ held ex_held ("default"%string, "b"%string) = Some (pod "b" "on")
  /\ held (reconcile clean std_order ex_held ex_slash).1 ("default"%string, "b"%string) = None
  /\ apply_ops (held ex_held) (default [] (reconcile clean std_order ex_held ex_slash).2) ("default"%string, "b"%string) = Some (pod "b" "on").
Proof. split_and!; vm_compute; reflexivity. Qed.
Print Assumptions C18_reconcile_refuted.

(** ** C19 *)

(** For every pipeline and every history that it accepts: what the emitted
    operations make of an empty target is exactly what evaluating the pipeline
    once on the current source objects shows, and the internal target cache
    holds the same.  Missing from the full statement: the results must have at
    most one document for each name at every moment ([functional]); the Kinds of
    the sources must differ (C24); deletions carry the content last seen
    ([event_ok]). *)
Theorem C19_target_partial {FF : FloatFmt} : forall sortv target sources join ps g p o ds p' outs,
  fmt_ok -> fmt_inj -> gvk_ok target -> sources <> [] -> NoDup (map gvk_kind sources) ->
  forallb (user_op (DD := json_docs_on clean)) ps = true -> Forall op_ok ps -> (forall jev, join = Some jev -> jev_ok jev) ->
  pipe_new clean target sources join ps = Some p -> pipeline_graph (map gvk_kind sources) join ps = Some g ->
  order_ok o -> history_ok clean sources ∅ ds ->
  pipe_run clean sortv o 0 p ds = (p', map Some outs) ->
  (forall pre post acc B, ds = pre ++ post -> inputs_of clean (after pre) (map gvk_kind sources) acc ->
     exec_scratch sortv g acc B -> functional clean B) ->
  exists acc B, inputs_of clean (after ds) (map gvk_kind sources) acc /\ exec_scratch sortv g acc B
    /\ shows clean target B (apply_ops no_objects (concat outs))
    /\ agree (p_tgt clean p') (apply_ops no_objects (concat outs)).
Proof. exact (fun sortv target sources join ps g p o ds p' outs Hf Hi => c19_core clean sortv target sources join ps g p o ds p' outs (exact_clean Hf Hi)). Qed.
Print Assumptions C19_target_partial.

(** If the user's expressions never fail, no event fails. *)
Theorem C19_total_partial {FF : FloatFmt} : forall sortv target sources join ps g p o ds,
  fmt_ok -> fmt_inj -> gvk_ok target -> sources <> [] -> NoDup (map gvk_kind sources) ->
  forallb (user_op (DD := json_docs_on clean)) ps = true -> Forall op_ok ps -> Forall op_total ps -> (forall jev, join = Some jev -> jev_ok jev /\ jev_total jev) ->
  pipe_new clean target sources join ps = Some p -> pipeline_graph (map gvk_kind sources) join ps = Some g ->
  order_ok o -> history_ok clean sources ∅ ds ->
  (forall pre post acc B, ds = pre ++ post -> inputs_of clean (after pre) (map gvk_kind sources) acc ->
     exec_scratch sortv g acc B -> functional clean B) ->
  exists p' outs, pipe_run clean sortv o 0 p ds = (p', map Some outs).
Proof. exact (fun sortv target sources join ps g p o ds Hf Hi => c19_total clean sortv target sources join ps g p o ds (exact_clean Hf Hi)). Qed.
Print Assumptions C19_total_partial.

(** For one source and stages that keep the names of the objects, the results
    always have at most one document for each name. *)
Theorem C19_functional {FF : FloatFmt} : forall sortv source ps g ds pre post acc B,
  fmt_ok -> fmt_inj -> Forall (keeps_names clean) ps ->
  pipeline_graph (DD := json_docs_on clean) (map gvk_kind [source]) None ps = Some g -> history_ok clean [source] ∅ ds -> named_history ds ->
  ds = pre ++ post -> inputs_of clean (after pre) (map gvk_kind [source]) acc -> exec_scratch sortv g acc B -> functional clean B.
Proof. exact (fun sortv source ps g ds pre post acc B Hf Hi => keeps_functional clean sortv source ps g [source] ds pre post acc B (exact_clean Hf Hi) eq_refl). Qed.
Print Assumptions C19_functional.

(** The pipeline of the examples: select, project to an object of the target kind. *)
Definition ex_ps : list (@op (json_docs_on clean)) := [OSelect ev_on; OProject ev_view].
Definition ex_sort (l : list json) : list json := l.
Definition run_names (sources : list gvk) (join : option (@join_evaluator (json_docs_on clean))) (ps : list (@op (json_docs_on clean))) (ds : list delta) :=
  (fun p => map op_names (pipe_run clean ex_sort std_order 0 p ds).2) <$> pipe_new clean tgt_gvk sources join ps.
Lemma ex_ps_ok : Forall op_ok ex_ps /\ Forall op_total ex_ps /\ Forall (keeps_names clean) ex_ps /\ Forall (op_posdet ex_sort) ex_ps.
Proof.
  destruct ev_on_ok as (A1 & A2 & A3), ev_view_ok as (B1 & B2 & B3).
  assert (Hok : Forall op_ok ex_ps) by (repeat (apply Forall_cons; split; auto); by apply Forall_nil).
  split; [done|]. split; [repeat (apply Forall_cons; split; auto); by apply Forall_nil|].
  split; [repeat (apply Forall_cons; split; auto); by apply Forall_nil|].
  eapply Forall_impl; [exact (basic_det ex_sort ex_ps eq_refl Hok)|]. intros p. apply op_det_posdet.
Qed.
Lemma ex_named : named_history ex_history.
Proof. repeat (apply Forall_cons; split; [vm_compute; by eexists|]). by apply Forall_nil. Qed.
Example ex_C19 : fmt_ok /\ fmt_inj /\ gvk_ok tgt_gvk /\ NoDup (map gvk_kind [pod_gvk]) /\ forallb (user_op (DD := json_docs_on clean)) ex_ps = true
  /\ Forall op_ok ex_ps /\ Forall op_total ex_ps /\ Forall (keeps_names clean) ex_ps
  /\ order_ok std_order /\ history_ok clean [pod_gvk] ∅ ex_history /\ named_history ex_history
  /\ run_names [pod_gvk] None ex_ps ex_history
     = Some [Some [(Upserted, "a"%string)]; Some []; Some [(Upserted, "a"%string)]; Some []; Some [(Upserted, "b"%string)]; Some [(Deleted, "a"%string)]].
Proof.
  destruct ex_ps_ok as (A1 & A2 & A3 & _).
  split; [exact sci_ok|]. split; [exact sci_inj|]. split; [vm_compute; reflexivity|]. split; [apply NoDup_singleton|].
  split; [reflexivity|]. do 3 (split; [done|]). split; [exact std_order_ok|]. split; [exact ex_history_ok|]. split; [exact ex_named|].
  vm_compute. reflexivity.
Qed.
(** A join. *)
Definition ex_join_history : list delta :=
  [Delta Added (pod "a" "on"); Delta Added (svc "s" "on"); Delta Updated (svc "s" "off"); Delta Updated (pod "a" "off"); Delta Deleted (pod "a" "off")].
Example ex_C19_join : NoDup (map gvk_kind [pod_gvk; svc_gvk])
  /\ run_names [pod_gvk; svc_gvk] (Some jev_phase) [] ex_join_history
     = Some [Some []; Some [(Upserted, "a"%string)]; Some [(Deleted, "a"%string)]; Some [(Upserted, "a"%string)]; Some [(Deleted, "a"%string)]].
Proof. split; [|vm_compute; reflexivity]. repeat (apply NoDup_cons; split; [rewrite ?elem_of_cons, elem_of_nil; vm_compute; intuition congruence|]). apply NoDup_nil. done. Qed.

(** ** C20 *)

(** Refuted: two pods yield the same target object; the deletion of one emits
    the deletion of the target object although the other pod still yields it.
    (For pipelines whose results have multiplicity one the property is part of
    C19.) *)
Definition ex_shared : list delta := [Delta Added (pod "a" "on"); Delta Added (pod "b" "on"); Delta Deleted (pod "a" "on")].
Theorem C20_survives_refuted :
  history_ok clean [pod_gvk] ∅ ex_shared
  /\ run_names [pod_gvk] None [OProject ev_one] ex_shared = Some [Some [(Upserted, "all"%string)]; Some [(Upserted, "all"%string)]; Some [(Deleted, "all"%string)]]
  /\ (flat_map (fun d => default [] (ev_one d)) (of_kind "Pod" (after ex_shared))
      = [[("metadata"%string, JMap [("name"%string, JStr "all"); ("namespace"%string, JStr "default")])]]).
Proof. split; [repeat (split; [event|]); exact I|]. split; vm_compute; reflexivity. Qed.
Print Assumptions C20_survives_refuted.

(** ** C21 *)

(** Whatever a session of events, Syncs and damage made of the internal target
    cache: after a Sync it equals the pipeline evaluated on the current sources,
    and the emitted operations bring a target with the old contents there.  A
    target that is right already is left alone.  Sync succeeds if the user's
    expressions do.
    Missing from the full statement: pipelines of selections and projections
    after the join; results with at most one document for each name; the target
    cache holds objects as results fill it. *)
Theorem C21_sync_partial {FF : FloatFmt} : forall sortv target sources join ps g p0 p o ds,
  fmt_ok -> fmt_inj -> gvk_ok target -> sources <> [] -> NoDup (map gvk_kind sources) ->
  forallb (basic_op (DD := json_docs_on clean)) ps = true -> Forall op_ok ps -> (forall jev, join = Some jev -> jev_ok jev) ->
  pipe_new clean target sources join ps = Some p0 -> pipeline_graph (map gvk_kind sources) join ps = Some g ->
  session clean sortv p0 p -> history_ok clean sources ∅ ds -> mirrors (p_src clean p) (after ds) -> target_ok clean target (p_tgt clean p) ->
  order_ok o -> (forall acc B, inputs_of clean (after ds) (map gvk_kind sources) acc -> exec_scratch sortv g acc B -> functional clean B) ->
  (forall p' out, sync clean sortv o p = (p', Some out) ->
    exists acc B, inputs_of clean (after ds) (map gvk_kind sources) acc /\ exec_scratch sortv g acc B
      /\ shows clean target B (apply_ops (held_plain (p_tgt clean p)) out)
      /\ agree (p_tgt clean p') (apply_ops (held_plain (p_tgt clean p)) out)
      /\ p_src clean p' = p_src clean p
      /\ (fits clean target B -> target_ok clean target (p_tgt clean p'))
      /\ (fits clean target B -> shows clean target B (held_plain (p_tgt clean p)) -> out = [] /\ p_tgt clean p' = p_tgt clean p))
  /\ (Forall op_total ps -> (forall jev, join = Some jev -> jev_total jev) -> is_Some (sync clean sortv o p).2).
Proof. exact (fun sortv target sources join ps g p0 p o ds Hf Hi => c21_core clean sortv target sources join ps g p0 p o ds (exact_clean Hf Hi)). Qed.
Print Assumptions C21_sync_partial.

(** A second Sync emits nothing.  Missing besides: the results must already be
    objects of the target kind without UIDs ([fits]). *)
Theorem C21_idempotent_partial {FF : FloatFmt} : forall sortv target sources join ps g p0 p o1 o2 ds p1 p2 out1 out2,
  fmt_ok -> fmt_inj -> gvk_ok target -> sources <> [] -> NoDup (map gvk_kind sources) ->
  forallb (basic_op (DD := json_docs_on clean)) ps = true -> Forall op_ok ps -> (forall jev, join = Some jev -> jev_ok jev) ->
  pipe_new clean target sources join ps = Some p0 -> pipeline_graph (map gvk_kind sources) join ps = Some g ->
  session clean sortv p0 p -> history_ok clean sources ∅ ds -> mirrors (p_src clean p) (after ds) -> target_ok clean target (p_tgt clean p) ->
  order_ok o1 -> order_ok o2 ->
  (forall acc B, inputs_of clean (after ds) (map gvk_kind sources) acc -> exec_scratch sortv g acc B -> functional clean B /\ fits clean target B) ->
  sync clean sortv o1 p = (p1, Some out1) -> sync clean sortv o2 p1 = (p2, Some out2) ->
  out2 = [] /\ p_tgt clean p2 = p_tgt clean p1.
Proof. exact (fun sortv target sources join ps g p0 p o1 o2 ds p1 p2 out1 out2 Hf Hi => c21_again clean sortv target sources join ps g p0 p o1 o2 ds p1 p2 out1 out2 (exact_clean Hf Hi)). Qed.
Print Assumptions C21_idempotent_partial.

(** Events, then the loss of the target cache (or junk in it), then three Syncs. *)
Definition sync_names (ps : list (@op (json_docs_on clean))) (tgt : store) (ds : list delta) :=
  (fun p =>
     let p1 := (pipe_run clean ex_sort std_order 0 p ds).1 in
     let '(p2, r1) := sync clean ex_sort std_order (set_tgt clean p1 tgt) in
     let '(p3, r2) := sync clean ex_sort std_order p2 in
     let '(p4, r3) := sync clean ex_sort std_order p3 in
     map op_names [r1; r2; r3]) <$> pipe_new clean tgt_gvk [pod_gvk] None ps.
Definition ex_two : list delta := [Delta Added (pod "a" "on"); Delta Added (pod "b" "on"); Delta Added (pod "c" "off")].
Definition view (name phase : string) : jobj := default [] (head (default [] (ev_view (pod name phase)))).
Definition ex_junk : store := {[ "default/a"%string := view "a" "busy"; "default/z"%string := view "z" "on" ]}.
Example ex_C21 : history_ok clean [pod_gvk] ∅ ex_two /\ forallb (basic_op (DD := json_docs_on clean)) ex_ps = true
  /\ sync_names ex_ps ∅ ex_two = Some [Some [(Upserted, "b"%string); (Upserted, "a"%string)]; Some []; Some []]
  /\ sync_names ex_ps ex_junk ex_two = Some [Some [(Deleted, "z"%string); (Upserted, "b"%string); (Upserted, "a"%string)]; Some []; Some []].
Proof. split; [repeat (split; [event|]); exact I|]. split_and!; vm_compute; reflexivity. Qed.
Lemma ex_junk_ok : target_ok clean tgt_gvk ex_junk.
Proof.
  intros k m. unfold ex_junk. rewrite lookup_insert_Some. intros [[<- <-]|[_ H]].
  - exists ("default", "a")%string, (view "a" "busy"). split; [vm_compute; reflexivity|]. split; [split; vm_compute; reflexivity|].
    split; [destruct (proj2 (keyed_clean (view "a" "busy")) eq_refl) as [x Hx]; by eapply (proj2 exact_sci)|].
    split; [vm_compute; reflexivity|]. split; [vm_compute; reflexivity|]. split; [vm_compute; reflexivity|]. apply keyed_clean. vm_compute. reflexivity.
  - apply lookup_singleton_Some in H as [<- <-].
    exists ("default", "z")%string, (view "z" "on"). split; [vm_compute; reflexivity|]. split; [split; vm_compute; reflexivity|].
    split; [destruct (proj2 (keyed_clean (view "z" "on")) eq_refl) as [x Hx]; by eapply (proj2 exact_sci)|].
    split; [vm_compute; reflexivity|]. split; [vm_compute; reflexivity|]. split; [vm_compute; reflexivity|]. apply keyed_clean. vm_compute. reflexivity.
Qed.

(** Refuted when the results lack the apiVersion and kind of the target, as
    results of most projections do: every Sync emits every object again. *)
Theorem C21_idempotent_refuted :
  sync_names [OProject ev_meta] ∅ ex_two = Some (replicate 3 (Some [(Upserted, "b"%string); (Upserted, "a"%string); (Upserted, "c"%string)])).
Proof. vm_compute. reflexivity. Qed.
Print Assumptions C21_idempotent_refuted.

(** ** C22 *)

(** A repeated event (a retry) emits nothing. *)
Theorem C22_silent {FF : FloatFmt} : forall sortv target sources join ps g p o ds d n p' outs,
  fmt_ok -> fmt_inj -> sources <> [] -> NoDup (map gvk_kind sources) ->
  forallb (user_op (DD := json_docs_on clean)) ps = true -> Forall op_ok ps -> Forall (op_posdet sortv) ps -> (forall jev, join = Some jev -> jev_ok jev) ->
  pipe_new clean target sources join ps = Some p -> pipeline_graph (map gvk_kind sources) join ps = Some g ->
  order_ok o -> history_ok clean sources ∅ (ds ++ d :: replicate n d) -> d_type d <> Deleted ->
  pipe_run clean sortv o 0 p (ds ++ d :: replicate n d) = (p', map Some outs) ->
  outs = take (S (length ds)) outs ++ replicate n [].
Proof. exact (fun sortv target sources join ps g p o ds d n p' outs Hf Hi => c22_silent clean sortv target sources join ps g p o ds d n p' outs (exact_clean Hf Hi)). Qed.
Print Assumptions C22_silent.

(** Refuted: when the write of the operations of an update fails, no number of
    successful retries writes them; the target stays as it was before the event. *)
Theorem C22_retry_refuted {FF : FloatFmt} : forall sortv target sources join ps g p o ds d n p' outs,
  fmt_ok -> fmt_inj -> sources <> [] -> NoDup (map gvk_kind sources) ->
  forallb (user_op (DD := json_docs_on clean)) ps = true -> Forall op_ok ps -> Forall (op_posdet sortv) ps -> (forall jev, join = Some jev -> jev_ok jev) ->
  pipe_new clean target sources join ps = Some p -> pipeline_graph (map gvk_kind sources) join ps = Some g ->
  order_ok o -> history_ok clean sources ∅ (ds ++ d :: replicate n d) -> Forall queued ds -> d_type d = Updated \/ d_type d = Replaced ->
  pipe_run clean sortv o 0 p (ds ++ d :: replicate n d) = (p', map Some outs) ->
  (inc_run clean sortv o 0 (p, no_objects) (map (fun d => (d, write_ok)) ds ++ (d, write_fails) :: replicate n (d, write_ok))).1
  = (p', apply_ops no_objects (concat (take (length ds) outs))).
Proof. exact (fun sortv target sources join ps g p o ds d n p' outs Hf Hi => c22_lost clean sortv target sources join ps g p o ds d n p' outs (exact_clean Hf Hi)). Qed.
Print Assumptions C22_retry_refuted.

(** The pod changes from "on" to "busy", the write fails, two retries succeed,
    then a Sync: the target still shows "on". *)
Definition ex_update : delta := Delta Updated (pod "a" "busy").
Definition ex_lost : option (option json * list bool * option json * bool) :=
  (fun p =>
     let '(st1, oks) := inc_run clean ex_sort std_order 0 (p, no_objects)
        [(Delta Added (pod "a" "on"), write_ok); (ex_update, write_fails); (ex_update, write_ok); (ex_update, write_ok)] in
     let '(st2, ok) := sow_reconcile clean ex_sort write_ok std_order st1 in
     let phase (T : contents) := m ← T ("default", "a")%string; mget m "phase" in
     (phase st1.2, oks, phase st2.2, ok)) <$> pipe_new clean tgt_gvk [pod_gvk] None ex_ps.
Example ex_C22 : history_ok clean [pod_gvk] ∅ ([Delta Added (pod "a" "on")] ++ ex_update :: replicate 2 ex_update)
  /\ ex_lost = Some (Some (JStr "on"), [true; false; true; true], Some (JStr "on"), true).
Proof. split; [repeat (split; [event|]); exact I|]. vm_compute. reflexivity. Qed.

(** ** C14 for a pipeline as a whole *)

(** Whatever evaluations fail on the way, the source caches hold the current
    objects, and a failed evaluation leaves the target cache alone. *)
Theorem C14_caches {FF : FloatFmt} : forall sortv target sources join ps p o ds p' rs,
  pipe_new clean target sources join ps = Some p -> history_ok clean sources ∅ ds ->
  pipe_run clean sortv o 0 p ds = (p', rs) ->
  mirrors (p_src clean p') (after ds)
  /\ forall o d, (evaluate clean sortv o p' d).2 = None -> p_tgt clean (evaluate clean sortv o p' d).1 = p_tgt clean p'.
Proof. exact (fun sortv target sources join ps p o ds p' rs => c14_caches clean sortv target sources join ps p o ds p' rs). Qed.
Print Assumptions C14_caches.

(** So a later Sync makes up for failed evaluations.  Missing from the full
    statement: without a Sync nothing does, see below; and as for C21. *)
Theorem C14_sync_partial {FF : FloatFmt} : forall sortv target sources join ps g p o ds p' rs o' p2 out,
  fmt_ok -> fmt_inj -> gvk_ok target -> sources <> [] -> NoDup (map gvk_kind sources) ->
  forallb (basic_op (DD := json_docs_on clean)) ps = true -> Forall op_ok ps -> (forall jev, join = Some jev -> jev_ok jev) ->
  pipe_new clean target sources join ps = Some p -> pipeline_graph (map gvk_kind sources) join ps = Some g ->
  history_ok clean sources ∅ ds -> pipe_run clean sortv o 0 p ds = (p', rs) -> target_ok clean target (p_tgt clean p') ->
  order_ok o' -> (forall acc B, inputs_of clean (after ds) (map gvk_kind sources) acc -> exec_scratch sortv g acc B -> functional clean B) ->
  sync clean sortv o' p' = (p2, Some out) ->
  exists acc B, inputs_of clean (after ds) (map gvk_kind sources) acc /\ exec_scratch sortv g acc B
    /\ shows clean target B (apply_ops (held_plain (p_tgt clean p')) out)
    /\ agree (p_tgt clean p2) (apply_ops (held_plain (p_tgt clean p')) out).
Proof. exact (fun sortv target sources join ps g p o ds p' rs o' p2 out Hf Hi => c14_sync clean sortv target sources join ps g p o ds p' rs o' p2 out (exact_clean Hf Hi)). Qed.
Print Assumptions C14_sync_partial.

(** A stage that fails on objects whose phase is "bad". *)
Definition ev_fussy : @evaluator (json_docs_on clean) := fun d =>
  match mget d "phase" with Some (JStr s) => if decide (s = "bad"%string) then None else ev_view d | _ => ev_view d end.
Definition set_phase (s : string) : delta := Delta Updated (pod "a" s).
Definition phase_of (T : contents) : option json := m ← T ("default", "a")%string; mget m "phase".
(** Which requests succeed, the phase of the target object, and again after a Sync. *)
Definition fussy_run (ds : list delta) : option (list bool * option json * option json * bool) :=
  (fun p =>
     let '(st1, oks) := inc_run clean ex_sort std_order 0 (p, no_objects) (map (fun d => (d, write_ok)) ds) in
     let '(st2, ok) := sow_reconcile clean ex_sort write_ok std_order st1 in
     (oks, phase_of st1.2, phase_of st2.2, ok)) <$> pipe_new clean tgt_gvk [pod_gvk] None [OProject ev_fussy].
Definition ex_repair : list delta := [Delta Added (pod "a" "on"); set_phase "bad"; set_phase "bad"; set_phase "off"; set_phase "off"].
Example ex_C14_sync : history_ok clean [pod_gvk] ∅ ex_repair /\ forallb (basic_op (DD := json_docs_on clean)) [OProject ev_fussy] = true
  /\ fussy_run ex_repair = Some ([true; false; true; false; true], Some (JStr "on"), Some (JStr "off"), true).
Proof. split; [repeat (split; [event|]); exact I|]. split; vm_compute; reflexivity. Qed.

(** Refuted: the phase changes from "on" to "bad", which fails; the retry
    succeeds without any effect.  The change to "off" fails as well, because the
    old content is evaluated again, and its retry succeeds without effect: the
    target shows "on" for an object that is "off" and that the stage accepts.
    If the object is deleted while it is "bad", the deletion fails, its retry
    fails because the object is not in the cache any more, and the target object
    stays for good. *)
Theorem C14_pipeline_refuted :
  fussy_run ex_repair = Some ([true; false; true; false; true], Some (JStr "on"), Some (JStr "off"), true)
  /\ fussy_run [Delta Added (pod "a" "on"); set_phase "bad"; set_phase "bad"; Delta Deleted (pod "a" "bad"); Delta Deleted (pod "a" "bad"); Delta Deleted (pod "a" "bad")]
     = Some ([true; false; true; false; false; false], Some (JStr "on"), None, true).
Proof. split; vm_compute; reflexivity. Qed.
Print Assumptions C14_pipeline_refuted.

(** An addition whose write fails, at any operation and any number of times, is
    repeated by its retries: when one of them succeeds the target is what the
    pipeline makes of the current objects.  Missing from the full statement:
    updates and deletions (above); joins and gathers (below); and as for C19. *)
Theorem C22_added_partial {FF : FloatFmt} : forall sortv target source ps g p o ds d wrs p' outs,
  fmt_ok -> fmt_inj -> gvk_ok target ->
  forallb (fun p : @op (json_docs_on clean) => user_op p && negb (is_nonlinear p)) ps = true -> Forall op_ok ps -> Forall (op_posdet sortv) ps ->
  pipe_new clean target [source] None ps = Some p -> pipeline_graph [gvk_kind source] None ps = Some g ->
  order_ok o -> history_ok clean [source] ∅ (ds ++ [d]) -> Forall queued ds -> d_type d = Added -> Forall flaky wrs ->
  pipe_run clean sortv o 0 p (ds ++ d :: replicate (length wrs) d) = (p', map Some outs) ->
  (forall pre post acc B, ds ++ [d] = pre ++ post -> inputs_of clean (after pre) [gvk_kind source] acc ->
     exec_scratch sortv g acc B -> functional clean B) ->
  let st := (inc_run clean sortv o 0 (p, no_objects) (map (fun d => (d, write_ok)) ds ++ map (fun wr => (d, wr)) wrs ++ [(d, write_ok)])).1 in
  st.1 = p' /\ exists acc B, inputs_of clean (after (ds ++ [d])) [gvk_kind source] acc /\ exec_scratch sortv g acc B
    /\ shows clean target B st.2 /\ agree (p_tgt clean p') st.2.
Proof.
  intros sortv target source ps g p o ds d wrs p' outs Hf Hi Hg Hl Hok Hd Hp Hgr.
  assert (exists g1, pipeline_new [gvk_kind source] None ps = Some g1) as [g1 Hg1].
  { unfold pipe_new in Hp. apply bind_Some in Hp as (g1 & Hg1 & _). by exists g1. }
  exact (c22_added clean sortv target source ps g g1 (exact_clean Hf Hi) Hg Hl Hok Hd Hg1 Hgr p o ds d wrs p' outs Hp).
Qed.
Print Assumptions C22_added_partial.
(** Pod "a" is added after "b"; two attempts to write it fail. *)
Definition ex_tries (wrs : list (contents -> delta -> option contents)) : option (list bool * list (option json)) :=
  (fun p =>
     let '(st, oks) := inc_run clean ex_sort std_order 0 (p, no_objects)
        ((Delta Added (pod "b" "on"), write_ok) :: map (fun wr => (Delta Added (pod "a" "on"), wr)) wrs) in
     (oks, map (fun n => m ← st.2 ("default"%string, n); mget m "phase") ["a"; "b"]%string)) <$> pipe_new clean tgt_gvk [pod_gvk] None ex_ps.
Example ex_C22_added : history_ok clean [pod_gvk] ∅ ([Delta Added (pod "b" "on")] ++ [Delta Added (pod "a" "on")])
  /\ Forall flaky [write_fails; write_fails] /\ forallb (fun p : @op (json_docs_on clean) => user_op p && negb (is_nonlinear p)) ex_ps = true
  /\ ex_tries [write_fails; write_fails] = Some ([true; false; false], [None; Some (JStr "on")])
  /\ ex_tries [write_fails; write_fails; write_ok] = Some ([true; false; false; true], [Some (JStr "on"); Some (JStr "on")]).
Proof.
  split; [repeat (split; [event|]); exact I|]. split; [repeat constructor|]. split_and!; vm_compute; reflexivity.
Qed.

(** Refuted for additions to joins and gathers.  An Added event whose write failed is fed to the
    pipeline a second time by its retry.  A join then holds pod "a" twice: the
    target object is still there after the pod is deleted and the service it was
    joined with is updated.  A gather lists the name of the pod twice. *)
Definition by_phase : @op (json_docs_on clean) :=
  OGather (fun d => Some (mget d "phase")) (fun d => Some (Some (JStr (get_name d))))
    (fun _ _ vs => Some [("metadata"%string, JMap [("name"%string, JStr "all"); ("namespace"%string, JStr "default")]); ("names"%string, JList vs)]).
Definition ghost_run (wr : contents -> delta -> option contents) : option (list bool * option json) :=
  (fun p =>
     let '(st, oks) := inc_run clean ex_sort std_order 0 (p, no_objects)
        [(Delta Added (svc "s" "on"), write_ok); (Delta Added (pod "a" "on"), wr); (Delta Added (pod "a" "on"), write_ok);
         (Delta Deleted (pod "a" "on"), write_ok); (Delta Updated (svc "s" "off"), write_ok); (Delta Updated (svc "s" "on"), write_ok)] in
     (oks, phase_of st.2)) <$> pipe_new clean tgt_gvk [pod_gvk; svc_gvk] (Some jev_phase) [].
Definition twice_run : option (list bool * option json) :=
  (fun p =>
     let '(st, oks) := inc_run clean ex_sort std_order 0 (p, no_objects) [(Delta Added (pod "a" "on"), write_fails); (Delta Added (pod "a" "on"), write_ok)] in
     (oks, m ← st.2 ("default", "all")%string; mget m "names")) <$> pipe_new clean tgt_gvk [pod_gvk] None [by_phase].
Theorem C22_added_refuted :
  ghost_run write_fails = Some ([true; false; true; true; true; true], Some (JStr "on"))
  /\ twice_run = Some ([false; true], Some (JList [JStr "a"; JStr "a"])).
Proof. split; vm_compute; reflexivity. Qed.
Print Assumptions C22_added_refuted.

(** ** C23 *)

(** Missing from the full statement: as for C19; and each stage must determine
    its result from its input whatever the iteration order ([op_posdet]; C06,
    C11). *)
Theorem C23_interleaving_partial {FF : FloatFmt} : forall sortv target sources join ps g p o1 o2 ds1 ds2 p1 p2 outs1 outs2,
  fmt_ok -> fmt_inj -> gvk_ok target -> sources <> [] -> NoDup (map gvk_kind sources) ->
  forallb (user_op (DD := json_docs_on clean)) ps = true -> Forall op_ok ps -> Forall (op_posdet sortv) ps -> (forall jev, join = Some jev -> jev_ok jev) ->
  pipe_new clean target sources join ps = Some p -> pipeline_graph (map gvk_kind sources) join ps = Some g ->
  order_ok o1 -> order_ok o2 -> history_ok clean sources ∅ ds1 -> history_ok clean sources ∅ ds2 ->
  (forall x, List.filter (about x) ds1 = List.filter (about x) ds2) ->
  pipe_run clean sortv o1 0 p ds1 = (p1, map Some outs1) -> pipe_run clean sortv o2 0 p ds2 = (p2, map Some outs2) ->
  (forall pre post acc B, ds1 = pre ++ post \/ ds2 = pre ++ post -> inputs_of clean (after pre) (map gvk_kind sources) acc ->
     exec_scratch sortv g acc B -> functional clean B) ->
  forall i, apply_ops no_objects (concat outs1) i = apply_ops no_objects (concat outs2) i.
Proof. exact (fun sortv target sources join ps g p o1 o2 ds1 ds2 p1 p2 outs1 outs2 Hf Hi => c23_core clean sortv target sources join ps g p o1 o2 ds1 ds2 p1 p2 outs1 outs2 (exact_clean Hf Hi)). Qed.
Print Assumptions C23_interleaving_partial.

Definition ex_one : list delta := [Delta Added (pod "a" "on"); Delta Updated (pod "a" "busy"); Delta Added (pod "b" "on"); Delta Deleted (pod "b" "on")].
Definition ex_other : list delta := [Delta Added (pod "b" "on"); Delta Added (pod "a" "on"); Delta Deleted (pod "b" "on"); Delta Updated (pod "a" "busy")].
Example ex_C23 : history_ok clean [pod_gvk] ∅ ex_one /\ history_ok clean [pod_gvk] ∅ ex_other
  /\ (forall x, List.filter (about x) ex_one = List.filter (about x) ex_other)
  /\ Forall (op_posdet ex_sort) ex_ps
  /\ run_names [pod_gvk] None ex_ps ex_one = Some [Some [(Upserted, "a"%string)]; Some [(Upserted, "a"%string)]; Some [(Upserted, "b"%string)]; Some [(Deleted, "b"%string)]]
  /\ run_names [pod_gvk] None ex_ps ex_other = Some [Some [(Upserted, "b"%string)]; Some [(Upserted, "a"%string)]; Some [(Deleted, "b"%string)]; Some [(Upserted, "a"%string)]].
Proof.
  split; [repeat (split; [event|]); exact I|]. split; [repeat (split; [event|]); exact I|]. split; [|split; [apply ex_ps_ok|split; vm_compute; reflexivity]].
  intros x. assert (Ha : forall t ph, about x (Delta t (pod "a" ph)) = bool_decide ((pod_gvk, ("default", "a")%string) = x)) by (intros; reflexivity).
  assert (Hb : forall t ph, about x (Delta t (pod "b" ph)) = bool_decide ((pod_gvk, ("default", "b")%string) = x)) by (intros; reflexivity).
  unfold ex_one, ex_other. cbn [List.filter]. rewrite !Ha, !Hb. do 2 case_bool_decide; subst; try done.
Qed.

(** ** C24 *)

(** Sources with distinct Kinds: every event of every source is accepted. *)
Theorem C24_distinct_partial {FF : FloatFmt} : forall sortv target sources join ps g p o ds,
  fmt_ok -> fmt_inj -> gvk_ok target -> sources <> [] -> NoDup (map gvk_kind sources) ->
  forallb (user_op (DD := json_docs_on clean)) ps = true -> Forall op_ok ps -> Forall op_total ps -> (forall jev, join = Some jev -> jev_ok jev /\ jev_total jev) ->
  pipe_new clean target sources join ps = Some p -> pipeline_graph (map gvk_kind sources) join ps = Some g ->
  order_ok o -> history_ok clean sources ∅ ds ->
  (forall pre post acc B, ds = pre ++ post -> inputs_of clean (after pre) (map gvk_kind sources) acc ->
     exec_scratch sortv g acc B -> functional clean B) ->
  exists p' outs, pipe_run clean sortv o 0 p ds = (p', map Some outs).
Proof. exact (fun sortv target sources join ps g p o ds Hf Hi => c19_total clean sortv target sources join ps g p o ds (exact_clean Hf Hi)). Qed.
Print Assumptions C24_distinct_partial.

(** Refuted for sources with the same Kind in different groups (or versions):
    a join over them is accepted when it is created, and then fails on every
    event of every history. *)
Theorem C24_same_kind_refuted {FF : FloatFmt} : forall P sortv target sources jev ps p o ds,
  sources <> [] -> ~ NoDup (map gvk_kind sources) -> forallb (user_op (DD := json_docs_on P)) ps = true ->
  pipe_new P target sources (Some jev) ps = Some p -> (pipe_run P sortv o 0 p ds).2 = replicate (length ds) None.
Proof. exact c24_same_kind. Qed.
Print Assumptions C24_same_kind_refuted.

Definition mesh_gvk : gvk := GVK "mesh.io" "v1" "Service".
Example ex_C24 : ~ NoDup (map gvk_kind [svc_gvk; mesh_gvk])
  /\ run_names [svc_gvk; mesh_gvk] (Some jev_phase) ex_ps [Delta Added (svc "s" "on"); Delta Added (svc "t" "on")] = Some [None; None].
Proof. split; [|vm_compute; reflexivity]. intros [H _]%NoDup_cons. apply H. vm_compute. by left. Qed.
