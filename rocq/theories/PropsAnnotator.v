(** Property C77: the operators of README.md and doc/getting-started.md annotate pods;
    and a property of all declared pipelines, C51 continued. *)
From Verif Require Import JsonModel ObjModel ZSetModel OpsModel ExecModel PipelineModel ValueModel PipeJsonModel StageModel ExampleModel AnnotatorModel.
From Verif Require Import ExprSpec ZSetSpec OpsSpec ExecSpec JsonSpec CleanSpec PipelineSpec StageSpec StageRunSpec ExampleSpec AnnotatorSpec.
From Verif Require Import CleanProofs ZSetProofs2 PipeProofs PipeProofs2 QuietProofs ExampleProofs2 AnnotatorProofs TestExpr TestPipe TestStage PropsPipeline PropsStage PropsStageRun TestExample PropsExample.
#[local] Open Scope string_scope.

(** An event that does not change what the pipeline yields from the objects in the
    cluster has no effect at all: not a single delta is sent to the target. *)
Theorem C51_quiet : forall (FF : FloatFmt) (EE : ExprEnv) sortv target sources p pp o ds d p' outs,
  fmt_ok -> fmt_inj -> sources <> [] -> NoDup (map gvk_kind sources) ->
  Forall stage_clean p -> declare clean target sources p = Some pp -> order_ok o -> history_ok clean sources ∅ (ds ++ [d]) ->
  pipe_run clean sortv o 0 pp (ds ++ [d]) = (p', map Some outs) ->
  (forall R R', yields sortv sources p (after ds) R -> yields sortv sources p (after (ds ++ [d])) R' -> Permutation R R') ->
  outs = (take (length ds) outs ++ [[]])%list.
Proof. intros FF EE sortv target sources p pp o ds d p' outs F1 F2. apply c51_quiet. by apply exact_clean. Qed.
Print Assumptions C51_quiet.

(** README.md: after every history of pods no event has failed, and there is a patch
    exactly for each pod.  It sets the annotation to the number of its containers.
    Missing from the full statement: JSONPath is assumed to read fields; the list of
    containers must exist ([C77_missing_refuted]). *)
Theorem C77_count_partial : forall (FF : FloatFmt) (EE : ExprEnv) sortv p pp o ds,
  reads_fields -> is_order iterate -> (forall l, Permutation (sortv l) l) -> fmt_ok -> fmt_inj -> env_clean ->
  unmarshal_pipeline count_json = Val p -> declare clean pod_kind [pod_kind] p = Some pp ->
  order_ok o -> history_ok clean [pod_kind] ∅ ds -> each counted_pod ds ->
  exists p' outs, pipe_run clean sortv o 0 pp ds = (p', map Some outs)
    /\ forall ns n m, apply_ops no_objects (concat outs) (ns, n) = Some m <->
         exists d c, In d (of_kind "Pod" (after ds)) /\ located d ns n /\ has_containers d c
           /\ m = annotation_patch ns n "dcontroller.io/container-num" (enc_int (Z.of_nat c)).
Proof. intros FF EE sortv p pp o ds HP HO HS F1 F2 HE HU HD Ho HH HC. by apply (count_hold HP HO HE sortv p). Qed.
Print Assumptions C77_count_partial.

(** doc/getting-started.md: the same with the annotation "true". *)
Theorem C77_managed_partial : forall (FF : FloatFmt) (EE : ExprEnv) sortv p pp o ds,
  reads_fields -> is_order iterate -> (forall l, Permutation (sortv l) l) -> fmt_ok -> fmt_inj -> env_clean ->
  unmarshal_pipeline managed_json = Val p -> declare clean pod_kind [pod_kind] p = Some pp ->
  order_ok o -> history_ok clean [pod_kind] ∅ ds -> each named_pod ds ->
  exists p' outs, pipe_run clean sortv o 0 pp ds = (p', map Some outs)
    /\ forall ns n m, apply_ops no_objects (concat outs) (ns, n) = Some m <->
         exists d, In d (of_kind "Pod" (after ds)) /\ located d ns n /\ m = annotation_patch ns n "dcontroller.io/managed" "true".
Proof. intros FF EE sortv p pp o ds HP HO HS F1 F2 HE HU HD Ho HH HC. by apply (managed_hold HP HO HE sortv p). Qed.
Print Assumptions C77_managed_partial.

(** An event that leaves the number of containers alone makes the operator write
    nothing; so what it writes itself does not set it off again. *)
Theorem C77_settles_partial : forall (FF : FloatFmt) (EE : ExprEnv) sortv p pp o ds e d ns n c,
  reads_fields -> is_order iterate -> (forall l, Permutation (sortv l) l) -> fmt_ok -> fmt_inj -> env_clean ->
  unmarshal_pipeline count_json = Val p -> declare clean pod_kind [pod_kind] p = Some pp ->
  order_ok o -> history_ok clean [pod_kind] ∅ (ds ++ [e]) -> each counted_pod (ds ++ [e]) -> d_type e <> Deleted ->
  In d (of_kind "Pod" (after ds)) -> located d ns n -> located (stripped (d_obj e)) ns n -> has_containers d c -> has_containers (stripped (d_obj e)) c ->
  exists p' outs, length outs = length ds /\ pipe_run clean sortv o 0 pp (ds ++ [e]) = (p', map Some (outs ++ [[]])).
Proof. intros FF EE sortv p pp o ds e d ns n c HP HO HS F1 F2 HE HU HD Ho HH HC Ht Hd L L' H H'. by apply (count_quiet HP HO HE sortv p pp o ds e d ns n c). Qed.
Print Assumptions C77_settles_partial.

(** The operator of doc/getting-started.md writes nothing at all about pods that it knows,
    whatever happens to them short of their deletion. *)
Theorem C77_managed_settles_partial : forall (FF : FloatFmt) (EE : ExprEnv) sortv p pp o ds e d ns n,
  reads_fields -> is_order iterate -> (forall l, Permutation (sortv l) l) -> fmt_ok -> fmt_inj -> env_clean ->
  unmarshal_pipeline managed_json = Val p -> declare clean pod_kind [pod_kind] p = Some pp ->
  order_ok o -> history_ok clean [pod_kind] ∅ (ds ++ [e]) -> each named_pod (ds ++ [e]) -> d_type e <> Deleted ->
  In d (of_kind "Pod" (after ds)) -> located d ns n -> located (stripped (d_obj e)) ns n ->
  exists p' outs, length outs = length ds /\ pipe_run clean sortv o 0 pp (ds ++ [e]) = (p', map Some (outs ++ [[]])).
Proof. intros FF EE sortv p pp o ds e d ns n HP HO HS F1 F2 HE HU HD Ho HH HC Ht Hd L L'. by apply (managed_quiet HP HO HE sortv p pp o ds e d ns n). Qed.
Print Assumptions C77_managed_settles_partial.

(** *** Examples *)
#[local] Existing Instance ex_env.
Definition a_container (n : string) : json := JMap [("name", JStr n)].
Definition a_pod (n : string) (marks : list (string * json)) (cs : list string) : jobj :=
  [("apiVersion", JStr "v1"); ("kind", JStr "Pod"); ("metadata", JMap [("annotations", JMap marks); ("name", JStr n); ("namespace", JStr "default")]); ("spec", JMap [("containers", JList (map a_container cs))])].
Definition marked (s : string) : list (string * json) := [("dcontroller.io/container-num", JStr s)].
Definition pod_events : list delta :=
  [Delta Added (a_pod "web" [] ["nginx"; "proxy"]); Delta Added (a_pod "db" [] ["mysql"]); Delta Updated (a_pod "web" (marked "2") ["nginx"; "proxy"]);
   Delta Deleted (a_pod "db" [] ["mysql"])].
Definition sent (j : json) (ds : list delta) : option (list (option (list (dtype * string)))) := map op_names <$> run_json j pod_kind [pod_kind] ds.
Example ex_C77 :
  history_ok clean [pod_kind] ∅ pod_events /\ each counted_pod pod_events
  /\ run_at count_json pod_kind [pod_kind] pod_events "default" "web" = Some (annotation_patch "default" "web" "dcontroller.io/container-num" "2")
  /\ run_at count_json pod_kind [pod_kind] pod_events "default" "db" = None
  /\ run_at managed_json pod_kind [pod_kind] pod_events "default" "web" = Some (annotation_patch "default" "web" "dcontroller.io/managed" "true")
  /\ sent count_json pod_events = Some [Some [(Upserted, "web")]; Some [(Upserted, "db")]; Some []; Some [(Deleted, "db")]]
  /\ sent managed_json pod_events = Some [Some [(Upserted, "web")]; Some [(Upserted, "db")]; Some []; Some [(Deleted, "db")]].
Proof.
  split_and!; [| |vm_compute; reflexivity..].
  - repeat (split; [an_event|]). exact I.
  - repeat (apply List.Forall_cons; [split; [eexists _, _; is_located|eexists _, _; split; vm_compute; reflexivity]|]). apply List.Forall_nil.
Qed.
(** The third event only shows what the operator wrote for the first one. *)
Example ex_C77_settles : exists d, In d (of_kind "Pod" (after (take 2 pod_events))) /\ located d "default" "web"
  /\ located (stripped (a_pod "web" (marked "2") ["nginx"; "proxy"])) "default" "web"
  /\ has_containers d 2 /\ has_containers (stripped (a_pod "web" (marked "2") ["nginx"; "proxy"])) 2.
Proof.
  exists (a_pod "web" [] ["nginx"; "proxy"]). split_and!; [|is_located|is_located|eexists; split; vm_compute; reflexivity|eexists; split; vm_compute; reflexivity].
  assert (of_kind "Pod" (after (take 2 pod_events)) = [a_pod "web" [] ["nginx"; "proxy"]; a_pod "db" [] ["mysql"]] \/ of_kind "Pod" (after (take 2 pod_events)) = [a_pod "db" [] ["mysql"]; a_pod "web" [] ["nginx"; "proxy"]]) as [-> | ->];
    [first [left; vm_compute; reflexivity|right; vm_compute; reflexivity]|by left|right; by left].
Qed.
(** The hypothesis of [C51_quiet] holds of the same event. *)
Example ex_C51_quiet :
  (forall R R', yields (fun l => l) [pod_kind] [Stage KProject (an_project "dcontroller.io/container-num" ct_expr)] (after (take 2 pod_events)) R ->
     yields (fun l => l) [pod_kind] [Stage KProject (an_project "dcontroller.io/container-num" ct_expr)] (after (take 2 pod_events ++ [Delta Updated (a_pod "web" (marked "2") ["nginx"; "proxy"])])) R' -> Permutation R R')
  /\ sent count_json (take 3 pod_events) = Some [Some [(Upserted, "web")]; Some [(Upserted, "db")]; Some []].
Proof.
  split; [|vm_compute; reflexivity]. destruct ex_C77_settles as (d & Hd & L & L' & H1%count_is & H2%count_is). destruct ex_C77 as (HH & HC & _).
  change pod_events with ((take 2 pod_events ++ [Delta Updated (a_pod "web" (marked "2") ["nginx"; "proxy"])]) ++ [Delta Deleted (a_pod "db" [] ["mysql"])])%list in HH, HC.
  apply PipeProofs.history_app in HH as [HH _]. apply Forall_app in HC as [HC _].
  apply (an_same ex_fields ex_order "dcontroller.io/container-num" ct_expr (fun d => enc_int (Z.of_nat (count_of d))) counted_pod eq_refl (ct_gives ex_fields) (ct_clean ex_clean) _ _ _ d "default" "web"); try done.
  cbn [d_obj]. by rewrite H1, H2.
Qed.

(** Refuted for objects without a list of containers: "@len" of a list with null in
    it is one, so the annotation says that there is one container. *)
Definition no_list : jobj := [("apiVersion", JStr "v1"); ("kind", JStr "Pod"); ("metadata", JMap [("name", JStr "web"); ("namespace", JStr "default")]); ("spec", JMap [])].
Theorem C77_missing_refuted :
  history_ok clean [pod_kind] ∅ [Delta Added no_list] /\ at_ ["spec"; "containers"] no_list = JNull
  /\ run_at count_json pod_kind [pod_kind] [Delta Added no_list] "default" "web" = Some (annotation_patch "default" "web" "dcontroller.io/container-num" "1").
Proof. split_and!; [|vm_compute; reflexivity..]. split; [an_event|]. exact I. Qed.
Print Assumptions C77_missing_refuted.
