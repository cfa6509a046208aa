(** Property C74, continued: the label selector of the health monitor. *)
From Verif Require Import JsonModel ObjModel ZSetModel OpsModel ExecModel PipelineModel ValueModel PipeJsonModel StageModel PredicateModel ExampleModel.
From Verif Require Import ExprSpec ZSetSpec OpsSpec ExecSpec JsonSpec CleanSpec PipelineSpec StageSpec PredicateSpec ExampleSpec ExampleSpec2.
From Verif Require Import ZSetProofs2 PipeProofs2 ExampleProofs4 ExampleProofs6 TestExpr TestPipe TestStage PropsPipeline PropsStage TestExample PropsExample.
#[local] Open Scope string_scope.

(** Whatever a watch on pods delivers, no event fails, and there is a HealthView
    exactly for the pairs of namespace and application of pods with the label
    "dcontroller.io/health-monitor: enabled".  It lists all such pods of the pair and
    no others.
    Missing from the full statement: no pod may gain or lose the label
    ([C74_unlabel_refuted]); the rest as in [C74_views_partial]. *)
Theorem C74_watched_partial : forall (FF : FloatFmt) (EE : ExprEnv) sortv ps p pp o evs,
  reads_fields -> reads_pods -> is_order iterate -> (forall l, Permutation (sortv l) l) -> fmt_ok -> fmt_inj -> env_clean ->
  unmarshal_pipeline pods_json = Val p -> declare clean health_view [pod_kind] p = Some pp -> order_ok o ->
  source_predicates None (Some monitor_label) None = Some ps -> pod_watch evs -> stable enabled evs ->
  (forall pre post, evs = (pre ++ post)%list -> splits (List.filter enabled (of_kind "Pod" (objects pre)))) ->
  exists p' outs, pipe_run clean sortv o 0 pp (requests ps evs) = (p', map Some outs)
    /\ forall ns a, match apply_ops no_objects (concat outs) (ns, a) with
       | None => enabled_of ns a (objects evs) = []
       | Some m => enabled_of ns a (objects evs) <> [] /\ exists l, Permutation l (map pod_status (enabled_of ns a (objects evs))) /\ m = view_of ns a l
       end.
Proof. intros FF EE sortv ps p pp o evs HP HQ HO HS F1 F2 HE HU HD Ho Hps HW HSt HSp. by apply (watched_views HP HQ HO HE sortv HS ps p pp o evs). Qed.
Print Assumptions C74_watched_partial.

#[local] Existing Instance ex_env.
Definition with_label (l : list (string * json)) (n s : string) : jobj :=
  ([("apiVersion", JStr "v1"); ("kind", JStr "Pod"); ("metadata", JMap [("labels", JMap ([("app", JStr "web")] ++ l)%list); ("name", JStr n); ("namespace", JStr "default")])] ++ ready s)%list.
Definition on : list (string * json) := [("dcontroller.io/health-monitor", JStr "enabled")].
Definition off : list (string * json) := [("dcontroller.io/health-monitor", JStr "disabled")].
Definition label_events : list wevent :=
  [WCreate (with_label on "web-1" "False"); WCreate (with_label off "web-2" "True"); WCreate (with_label on "web-3" "True");
   WUpdate (Some (with_label on "web-1" "False")) (Some (with_label on "web-1" "True")); WUpdate (Some (with_label off "web-2" "True")) (Some (with_label [] "web-2" "True"));
   WDelete (with_label on "web-3" "True")].
Definition label_run (evs : list wevent) : option (option jobj) :=
  ps ← source_predicates None (Some monitor_label) None; Some (run_at pods_json health_view [pod_kind] (requests ps evs) "default" "web").
Ltac a_shape := split; [apply owf_ex; vm_compute; reflexivity|]; split; [vm_compute; reflexivity|]; split; [vm_compute; reflexivity|]; split; [vm_compute; by eexists|]; split; vm_compute; reflexivity.
Ltac a_monitored := intros _; eexists _, _, "web"; split_and!; [is_located|vm_compute; reflexivity|a_text|vm_compute; reflexivity|vm_compute; split; discriminate].
Lemma label_watch : pod_watch label_events.
Proof.
  split; [cbn [label_events informer]; split_and!; try exact I; vm_compute; reflexivity|].
  intros e m He Hm. repeat (destruct He as [<-|He]; [injection Hm as <-; split; [a_shape|first [a_monitored|intros E; vm_compute in E; discriminate E]]|]). destruct He.
Qed.
Example ex_C74_watched :
  pod_watch label_events /\ stable enabled label_events
  /\ (forall pre post, label_events = (pre ++ post)%list -> splits (List.filter enabled (of_kind "Pod" (objects pre))))
  /\ enabled_of "default" "web" (objects label_events) = [with_label on "web-1" "True"]
  /\ label_run label_events = Some (Some (view_of "default" "web" [JMap [("podName", JStr "web-1"); ("ready", JStr "True")]])).
Proof.
  split; [exact label_watch|]. split.
  { intros old m H. repeat (destruct H as [H|H]; [try discriminate H; injection H as <- <-; vm_compute; reflexivity|]). destruct H. }
  split; [|split; vm_compute; reflexivity].
  intros pre post E. apply prefix_take in E as [Hn ->]. apply pairwise_ok. revert Hn. generalize (length pre). intros n Hn. cbn in Hn.
  do 7 (destruct n as [|n]; [vm_compute; reflexivity|]). lia.
Qed.

(** Refuted for pods that lose the label: they are listed for ever, as they last were
    while they had it, even after they are deleted. *)
Definition unlabel_events : list wevent :=
  [WCreate (with_label on "web-1" "True"); WUpdate (Some (with_label on "web-1" "True")) (Some (with_label off "web-1" "False")); WDelete (with_label off "web-1" "False")].
Theorem C74_unlabel_refuted :
  pod_watch unlabel_events /\ ~ stable enabled unlabel_events
  /\ of_kind "Pod" (objects unlabel_events) = []
  /\ label_run unlabel_events = Some (Some (view_of "default" "web" [JMap [("podName", JStr "web-1"); ("ready", JStr "True")]])).
Proof.
  split_and!.
  - split; [cbn [unlabel_events informer]; split_and!; try exact I; vm_compute; reflexivity|].
    intros e m He Hm. repeat (destruct He as [<-|He]; [injection Hm as <-; split; [a_shape|first [a_monitored|intros E; vm_compute in E; discriminate E]]|]). destruct He.
  - intros H. specialize (H _ _ (or_intror (or_introl eq_refl))). vm_compute in H. discriminate H.
  - vm_compute. reflexivity.
  - vm_compute. reflexivity.
Qed.
Print Assumptions C74_unlabel_refuted.
