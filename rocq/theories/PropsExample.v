(** Property C74: the shipped examples do what their documentation says. *)
From Verif Require Import JsonModel ObjModel ZSetModel OpsModel ExecModel PipelineModel ValueModel PipeJsonModel StageModel ExampleModel.
From Verif Require Import ExprSpec ZSetSpec OpsSpec ExecSpec JsonSpec CleanSpec PipelineSpec StageSpec StageRunSpec ExampleSpec.
From Verif Require Import ZSetProofs2 PipeProofs2 PipeProofs ExampleProofs2 ExampleProofs3 ExampleProofs4 ExampleProofs5 TestExpr TestPipe TestStage PropsPipeline PropsStage PropsStageRun TestExample.
#[local] Open Scope string_scope.

(** configmap-deployment-controller: after every history of ConfigMaps, Deployments
    and ConfigDeployments, the controller asks for exactly these patches: for each
    Deployment that a ConfigDeployment ties to an existing ConfigMap of the same
    namespace, the current resource version of that ConfigMap as annotation of the pod
    template.  [p] is what the decoder makes of the shipped file.
    Missing from the full statement: no two ConfigDeployments may name the same
    Deployment ([C74_config_refuted]), and JSONPath is assumed to read fields.
    That no event fails is [C74_config_runs_partial]. *)
Theorem C74_config_partial : forall (FF : FloatFmt) (EE : ExprEnv) sortv p pp o ds p' outs,
  reads_fields -> is_order iterate -> fmt_ok -> fmt_inj -> env_clean ->
  unmarshal_pipeline configdep_json = Val p -> declare clean deployment [config_map; deployment; config_deployment] p = Some pp ->
  order_ok o -> history_ok clean [config_map; deployment; config_deployment] ∅ ds -> each config_object ds ->
  (forall pre post, ds = (pre ++ post)%list -> one_config (after pre)) ->
  pipe_run clean sortv o 0 pp ds = (p', map Some outs) ->
  forall ns n m, apply_ops no_objects (concat outs) (ns, n) = Some m <->
    exists cd cm dp v, In cd (of_kind "ConfigDeployment" (after ds)) /\ In cm (of_kind "ConfigMap" (after ds)) /\ In dp (of_kind "Deployment" (after ds))
      /\ wants cd cm dp /\ located dp ns n /\ at_ ["metadata"; "resourceVersion"] cm = JStr v /\ m = version_patch ns n v.
Proof. intros. by eapply configdep_holds. Qed.
Print Assumptions C74_config_partial.
(** No event of such a history fails. *)
Theorem C74_config_runs_partial : forall (FF : FloatFmt) (EE : ExprEnv) sortv p pp o ds,
  reads_fields -> is_order iterate -> (forall l, Permutation (sortv l) l) -> fmt_ok -> fmt_inj -> env_clean ->
  unmarshal_pipeline configdep_json = Val p -> declare clean deployment [config_map; deployment; config_deployment] p = Some pp ->
  order_ok o -> history_ok clean [config_map; deployment; config_deployment] ∅ ds -> each config_object ds ->
  (forall pre post, ds = (pre ++ post)%list -> one_config (after pre)) ->
  exists p' outs, pipe_run clean sortv o 0 pp ds = (p', map Some outs).
Proof. intros FF EE sortv p pp o ds HP HO HS F1 F2 HE HU HD Ho HH HC H1. by apply (configdep_runs HP HO HE sortv p). Qed.
Print Assumptions C74_config_runs_partial.

(** service-health-monitor, first controller: there is a HealthView exactly for the
    pairs of namespace and label app that some monitored pod has, and it lists the
    name and the readiness of all pods of the pair and of no others.
    Missing from the full statement: "name--namespace" must tell the pairs apart ([C74_mixed_refuted]), the rest as above. *)
Theorem C74_views_partial : forall (FF : FloatFmt) (EE : ExprEnv) sortv p pp o ds p' outs,
  reads_fields -> reads_pods -> is_order iterate -> (forall l, Permutation (sortv l) l) -> fmt_ok -> fmt_inj -> env_clean ->
  unmarshal_pipeline pods_json = Val p -> declare clean health_view [pod_kind] p = Some pp ->
  order_ok o -> history_ok clean [pod_kind] ∅ ds -> each monitored ds -> (forall pre post, ds = (pre ++ post)%list -> splits (of_kind "Pod" (after pre))) ->
  pipe_run clean sortv o 0 pp ds = (p', map Some outs) ->
  forall ns a, match apply_ops no_objects (concat outs) (ns, a) with
    | None => pods_of ns a (after ds) = []
    | Some m => pods_of ns a (after ds) <> [] /\ exists ps, Permutation ps (map pod_status (pods_of ns a (after ds))) /\ m = view_of ns a ps
    end.
Proof. intros FF EE sortv p pp o ds p' outs HP HQ HO HS F1 F2 HE HU HD Ho HH HM HSp HR. exact (pods_holds HP HQ HO sortv HS p pp o ds p' outs F1 F2 HE HU HD Ho HH HM HSp HR). Qed.
Print Assumptions C74_views_partial.
Theorem C74_views_runs_partial : forall (FF : FloatFmt) (EE : ExprEnv) sortv p pp o ds,
  reads_fields -> reads_pods -> is_order iterate -> (forall l, Permutation (sortv l) l) -> fmt_ok -> fmt_inj -> env_clean ->
  unmarshal_pipeline pods_json = Val p -> declare clean health_view [pod_kind] p = Some pp ->
  order_ok o -> history_ok clean [pod_kind] ∅ ds -> each monitored ds -> (forall pre post, ds = (pre ++ post)%list -> splits (of_kind "Pod" (after pre))) ->
  exists p' outs, pipe_run clean sortv o 0 pp ds = (p', map Some outs).
Proof. intros FF EE sortv p pp o ds HP HQ HO HS F1 F2 HE HU HD Ho HH HM HSp. by apply (pods_runs HP HO HE HQ sortv p). Qed.
Print Assumptions C74_views_runs_partial.

(** Second controller: it asks for exactly one patch for each Service that has a
    HealthView of the same name and namespace: the annotation "ready/total". *)
Theorem C74_services_partial : forall (FF : FloatFmt) (EE : ExprEnv) sortv p pp o ds p' outs,
  reads_fields -> is_order iterate -> fmt_ok -> fmt_inj -> env_clean ->
  unmarshal_pipeline health_json = Val p -> declare clean service [health_view; service] p = Some pp ->
  order_ok o -> history_ok clean [health_view; service] ∅ ds -> each health_object ds -> pipe_run clean sortv o 0 pp ds = (p', map Some outs) ->
  forall ns n m, apply_ops no_objects (concat outs) (ns, n) = Some m <->
    exists hv sv, In hv (of_kind "HealthView" (after ds)) /\ In sv (of_kind "Service" (after ds)) /\ located hv ns n /\ located sv ns n
      /\ m = ready_patch ns n (length (List.filter is_ready (pods_in hv))) (length (pods_in hv)).
Proof. intros. by eapply health_holds. Qed.
Print Assumptions C74_services_partial.
Theorem C74_services_runs : forall (FF : FloatFmt) (EE : ExprEnv) sortv p pp o ds,
  reads_fields -> is_order iterate -> (forall l, Permutation (sortv l) l) -> fmt_ok -> fmt_inj -> env_clean ->
  unmarshal_pipeline health_json = Val p -> declare clean service [health_view; service] p = Some pp ->
  order_ok o -> history_ok clean [health_view; service] ∅ ds -> each health_object ds ->
  exists p' outs, pipe_run clean sortv o 0 pp ds = (p', map Some outs).
Proof. intros FF EE sortv p pp o ds HP HO HS F1 F2 HE HU HD Ho HH HM. by apply (health_runs HP HO HE sortv p). Qed.
Print Assumptions C74_services_runs.

(** Both: once the second controller has seen what the first one wrote, a Service is
    annotated exactly if monitored pods of its namespace carry its name as label
    app, and the annotation is the number of those that are ready and the number of
    all of them. *)
Theorem C74_health_partial : forall (FF : FloatFmt) (EE : ExprEnv) sortv p1 pp1 o1 ds1 p1' outs1 p2 pp2 o2 ds2 p2' outs2,
  reads_fields -> reads_pods -> is_order iterate -> (forall l, Permutation (sortv l) l) -> fmt_ok -> fmt_inj -> env_clean ->
  unmarshal_pipeline pods_json = Val p1 -> declare clean health_view [pod_kind] p1 = Some pp1 ->
  order_ok o1 -> history_ok clean [pod_kind] ∅ ds1 -> each monitored ds1 -> (forall pre post, ds1 = (pre ++ post)%list -> splits (of_kind "Pod" (after pre))) ->
  pipe_run clean sortv o1 0 pp1 ds1 = (p1', map Some outs1) ->
  unmarshal_pipeline health_json = Val p2 -> declare clean service [health_view; service] p2 = Some pp2 ->
  order_ok o2 -> history_ok clean [health_view; service] ∅ ds2 -> each health_object ds2 -> pipe_run clean sortv o2 0 pp2 ds2 = (p2', map Some outs2) ->
  sees (apply_ops no_objects (concat outs1)) (after ds2) ->
  forall ns n m, apply_ops no_objects (concat outs2) (ns, n) = Some m <->
    pods_of ns n (after ds1) <> [] /\ (exists sv, In sv (of_kind "Service" (after ds2)) /\ located sv ns n)
    /\ m = ready_patch ns n (length (List.filter pod_ready (pods_of ns n (after ds1)))) (length (pods_of ns n (after ds1))).
Proof.
  intros FF EE sortv p1 pp1 o1 ds1 p1' outs1 p2 pp2 o2 ds2 p2' outs2 HP HQ HO HS F1 F2 HE U1 D1 O1 H1 M1 S1 R1 U2 D2 O2 H2 M2 R2 HV ns n m.
  rewrite (C74_services_partial FF EE sortv p2 pp2 o2 ds2 p2' outs2 HP HO F1 F2 HE U2 D2 O2 H2 M2 R2 ns n m).
  pose proof (C74_views_partial FF EE sortv p1 pp1 o1 ds1 p1' outs1 HP HQ HO HS F1 F2 HE U1 D1 O1 H1 M1 S1 R1 ns n) as HT.
  assert (HC : forall ps, Permutation ps (map pod_status (pods_of ns n (after ds1))) ->
    length (List.filter is_ready ps) = length (List.filter pod_ready (pods_of ns n (after ds1))) /\ length ps = length (pods_of ns n (after ds1))).
  { intros ps Hps. split; [|by rewrite Hps, map_length]. unfold pod_ready. rewrite <-ready_count. apply Permutation_length. by apply filter_perm. }
  split.
  - intros (hv & sv & X1 & X2 & L1 & L2 & ->). destruct (health_in H2 M2 X1) as [(_ & Hp) Hk]. destruct (Hp Hk) as (ps & Hps & _).
    destruct (proj1 (HV ns n ps)) as (m & Hm & Hpm); [by exists hv|]. rewrite Hm in HT. destruct HT as [HN (ps' & HP' & ->)]. injection Hpm as ->.
    destruct (HC _ HP') as [C1 C2]. unfold pods_in. rewrite Hps, C1, C2. split_and!; [done|by exists sv|done].
  - intros (HN & (sv & X2 & L2) & ->). destruct (apply_ops no_objects (concat outs1) (ns, n)) as [m|] eqn:Em; [|done]. destruct HT as [_ (ps & HP' & ->)].
    destruct (proj2 (HV ns n ps)) as (hv & X1 & L1 & Hps); [eexists; by split; [exact Em|]|]. destruct (HC _ HP') as [C1 C2].
    exists hv, sv. split_and!; [done..|]. unfold pods_in. by rewrite Hps, C1, C2.
Qed.
Print Assumptions C74_health_partial.

(** *** Examples *)
#[local] Existing Instance ex_env.
Definition k8s (api kind ns n : string) (meta rest : list (string * json)) : jobj :=
  ([("apiVersion", JStr api); ("kind", JStr kind); ("metadata", JMap ([("name", JStr n); ("namespace", JStr ns)] ++ meta)%list)] ++ rest)%list.
Definition a_map (n version : string) : jobj := k8s "v1" "ConfigMap" "default" n [("resourceVersion", JStr version)] [].
Definition a_deployment (n : string) : jobj := k8s "apps/v1" "Deployment" "default" n [] [].
Definition a_tie (n map dep : string) : jobj := k8s "dcontroller.io/v1alpha1" "ConfigDeployment" "default" n [] [("spec", JMap [("configMap", JStr map); ("deployment", JStr dep)])].
Definition config_events : list delta :=
  [Delta Added (a_map "conf" "7"); Delta Added (a_deployment "web"); Delta Added (a_tie "tie" "conf" "web"); Delta Updated (a_map "conf" "8")].
Definition run_json (j : json) (target : gvk) (sources : list gvk) (ds : list delta) : option (list (option (list delta))) :=
  match unmarshal_pipeline j with Val p => (fun pp => (pipe_run clean (fun l => l) std_order 0 pp ds).2) <$> declare clean target sources p | _ => None end.
Definition run_at (j : json) (target : gvk) (sources : list gvk) (ds : list delta) (ns n : string) : option jobj :=
  rs ← run_json j target sources ds; apply_ops no_objects (concat (omap id rs)) (ns, n).
(** The prefixes of a concrete list. *)
Lemma prefix_take {A} (ds pre post : list A) : ds = (pre ++ post)%list -> (length pre <= length ds)%nat /\ pre = take (length pre) ds.
Proof. intros ->. rewrite app_length. split; [lia|]. by rewrite take_app. Qed.
Lemma one_config_small w : (length (of_kind "ConfigDeployment" w) <= 1)%nat -> one_config w.
Proof. intros H cd1 cd2 ns x1 x2 n. destruct (of_kind "ConfigDeployment" w) as [|a [|b l]]; [done| |cbn in H; lia]. by intros [->|[]] [->|[]]. Qed.
Ltac a_text := split; discriminate.
Ltac is_located := split_and!; [reflexivity|reflexivity|a_text|a_text].
Example ex_C74_config :
  reads_fields /\ is_order iterate /\ fmt_ok /\ fmt_inj /\ env_clean /\ order_ok std_order
  /\ history_ok clean [config_map; deployment; config_deployment] ∅ config_events /\ each config_object config_events
  /\ (forall pre post, config_events = (pre ++ post)%list -> one_config (after pre))
  /\ all_ok <$> run_json configdep_json deployment [config_map; deployment; config_deployment] config_events = Some true
  /\ run_at configdep_json deployment [config_map; deployment; config_deployment] config_events "default" "web" = Some (version_patch "default" "web" "8").
Proof.
  split_and!; [exact ex_fields|exact ex_order|exact sci_ok|exact sci_inj|exact ex_clean|exact std_order_ok| | | |vm_compute; reflexivity..].
  - repeat (split; [an_event|]). exact I.
  - repeat (apply List.Forall_cons; [split_and!; [eexists _, _; is_located|try (intros E; vm_compute in E; discriminate E)..]|]); [..|apply List.Forall_nil].
    + intros _. eexists. split; [reflexivity|a_text].
    + intros _ k s [->| ->] E; vm_compute in E; injection E as <-; a_text.
    + intros _. eexists. split; [reflexivity|a_text].
  - intros pre post E. apply prefix_take in E as [Hn ->]. apply one_config_small. revert Hn. generalize (length pre). intros n Hn. cbn in Hn.
    do 5 (destruct n as [|n]; [vm_compute; lia|]). lia.
Qed.

(** Refuted without that condition: with two ConfigDeployments for one Deployment, the
    later one decides, and when it goes away the Deployment loses its annotation
    although the first one still asks for it. *)
Definition two_ties : list delta := (config_events ++ [Delta Added (a_map "other" "3"); Delta Added (a_tie "tie2" "other" "web"); Delta Deleted (a_tie "tie2" "other" "web")])%list.
Theorem C74_config_refuted :
  history_ok clean [config_map; deployment; config_deployment] ∅ two_ties
  /\ all_ok <$> run_json configdep_json deployment [config_map; deployment; config_deployment] two_ties = Some true
  /\ wants (a_tie "tie" "conf" "web") (a_map "conf" "8") (a_deployment "web")
  /\ run_at configdep_json deployment [config_map; deployment; config_deployment] (take 6 two_ties) "default" "web" = Some (version_patch "default" "web" "3")
  /\ of_kind "ConfigDeployment" (after two_ties) = [a_tie "tie" "conf" "web"]
  /\ run_at configdep_json deployment [config_map; deployment; config_deployment] two_ties "default" "web" = None.
Proof.
  split_and!; [| |exists "default", "tie", "conf", "web"; split_and!; [is_located..|reflexivity|reflexivity]|vm_compute; reflexivity..].
  - repeat (split; [an_event|]). exact I.
  - vm_compute. reflexivity.
Qed.
Print Assumptions C74_config_refuted.

(** Pods of two applications, one of which becomes ready. *)
Definition ready (s : string) : list (string * json) :=
  [("status", JMap [("conditions", JList [JMap [("status", JStr "True"); ("type", JStr "PodScheduled")]; JMap [("status", JStr s); ("type", JStr "Ready")]])])].
Definition an_app (ns n a s : string) : jobj :=
  ([("apiVersion", JStr "v1"); ("kind", JStr "Pod"); ("metadata", JMap [("labels", JMap [("app", JStr a)]); ("name", JStr n); ("namespace", JStr ns)])] ++ ready s)%list.
Definition pod_events : list delta :=
  [Delta Added (an_app "default" "web-1" "web" "True"); Delta Added (an_app "default" "web-2" "web" "False"); Delta Added (an_app "default" "web-3" "web" "False");
   Delta Updated (an_app "default" "web-3" "web" "True")].
Definition web_status_seen : list json :=
  [JMap [("podName", JStr "web-2"); ("ready", JStr "False")]; JMap [("podName", JStr "web-1"); ("ready", JStr "True")]; JMap [("podName", JStr "web-3"); ("ready", JStr "True")]].
Definition told_by (rs : option (list (option (list delta)))) : contents := apply_ops no_objects (concat (omap id (default [] rs))).
Fixpoint pairwise (l : list jobj) : bool :=
  match l with
  | [] => true
  | d :: l => forallb (fun d' => negb (String.eqb (pd_text d) (pd_text d')) || String.eqb (app_str d) (app_str d') && String.eqb (ns_str d) (ns_str d')) l && pairwise l
  end.
Lemma pairwise_ok l : pairwise l = true -> splits l.
Proof.
  assert (G : pairwise l = true -> forall d1 d2, In d1 l -> In d2 l -> pd_text d1 = pd_text d2 -> app_str d1 = app_str d2 /\ ns_str d1 = ns_str d2).
  { induction l as [|d l IH]; [done|]. cbn [pairwise]. intros [H1 H2]%andb_prop. rewrite forallb_forall in H1. specialize (IH H2).
    assert (K : forall d', In d' l -> pd_text d = pd_text d' -> app_str d = app_str d' /\ ns_str d = ns_str d').
    { intros d' Hd' E. specialize (H1 d' Hd'). rewrite E, String.eqb_refl in H1. cbn [negb orb] in H1. apply andb_prop in H1 as [X1 X2]. by apply String.eqb_eq in X1, X2. }
    intros d1 d2 [<-|I1] [<-|I2] E; [done|by apply K| |by apply IH]. destruct (K d1 I1 (eq_sym E)). done. }
  intros H d1 d2 a1 a2 s1 s2 I1 I2 A1 A2 B1 B2 E. unfold app_of in *. specialize (G H d1 d2 I1 I2). unfold pd_text, app_str, ns_str in G.
  rewrite (str_at_is _ _ _ A1), (str_at_is _ _ _ A2), (str_at_is _ _ _ B1), (str_at_is _ _ _ B2) in G. by apply G.
Qed.
Lemma told_web ns a : told_by (run_json pods_json health_view [pod_kind] pod_events) (ns, a) = if decide ((ns, a) = ("default", "web")) then Some (view_of "default" "web" web_status_seen) else None.
Proof.
  unfold told_by.
  assert (concat (omap id (default [] (run_json pods_json health_view [pod_kind] pod_events))) =
    map (fun ps => Delta Upserted (view_of "default" "web" ps))
      [[JMap [("podName", JStr "web-1"); ("ready", JStr "True")]];
       [JMap [("podName", JStr "web-2"); ("ready", JStr "False")]; JMap [("podName", JStr "web-1"); ("ready", JStr "True")]];
       [JMap [("podName", JStr "web-2"); ("ready", JStr "False")]; JMap [("podName", JStr "web-1"); ("ready", JStr "True")]; JMap [("podName", JStr "web-3"); ("ready", JStr "False")]];
       web_status_seen]) as -> by (vm_compute; reflexivity).
  unfold apply_ops. cbn [map foldl]. unfold apply_op. cbn [d_type d_obj].
  repeat match goal with |- context [obj_id (view_of "default" "web" ?x)] => change (obj_id (view_of "default" "web" x)) with ("default", "web") end.
  destruct (decide ((ns, a) = ("default", "web"))); done.
Qed.
Definition seen_events : list delta := [Delta Added (k8s "v1" "Service" "default" "web" [] []); Delta Added (view_of "default" "web" web_status_seen)].
Lemma seen_views : of_kind "HealthView" (after seen_events) = [view_of "default" "web" web_status_seen].
Proof. vm_compute. reflexivity. Qed.
Example ex_C74_health :
  reads_fields /\ reads_pods /\ is_order iterate /\ fmt_ok /\ fmt_inj /\ env_clean /\ order_ok std_order
  /\ history_ok clean [pod_kind] ∅ pod_events /\ each monitored pod_events /\ (forall pre post, pod_events = (pre ++ post)%list -> splits (of_kind "Pod" (after pre)))
  /\ all_ok <$> run_json pods_json health_view [pod_kind] pod_events = Some true
  /\ history_ok clean [health_view; service] ∅ seen_events /\ each health_object seen_events
  /\ all_ok <$> run_json health_json service [health_view; service] seen_events = Some true
  /\ sees (told_by (run_json pods_json health_view [pod_kind] pod_events)) (after seen_events)
  /\ run_at health_json service [health_view; service] seen_events "default" "web" = Some (ready_patch "default" "web" 2 3).
Proof.
  split_and!; [exact ex_fields|exact ex_pods|exact ex_order|exact sci_ok|exact sci_inj|exact ex_clean|exact std_order_ok| | | |vm_compute; reflexivity| | |vm_compute; reflexivity| |vm_compute; reflexivity].
  - repeat (split; [an_event|]). exact I.
  - repeat (apply List.Forall_cons; [eexists _, _, _; split; [is_located|split; [reflexivity|split; [a_text|split; [reflexivity|vm_compute; a_text]]]]|]). apply List.Forall_nil.
  - intros pre post E. apply prefix_take in E as [Hn ->]. apply pairwise_ok. revert Hn. generalize (length pre). intros n Hn. cbn in Hn.
    do 5 (destruct n as [|n]; [vm_compute; reflexivity|]). lia.
  - repeat (split; [an_event|]). exact I.
  - apply List.Forall_cons; [split; [eexists _, _; is_located|intros E; vm_compute in E; discriminate E]|]. apply List.Forall_cons; [|apply List.Forall_nil].
    split; [eexists _, _; is_located|]. intros _. eexists. split; [reflexivity|]. repeat (apply List.Forall_cons; [vm_compute; a_text|]). apply List.Forall_nil.
  - intros ns a ps. rewrite seen_views, told_web. split.
    + intros (hv & [<-|[]] & (E1 & E2 & _) & Hp). vm_compute in E1, E2. injection E1 as <-. injection E2 as <-. eexists. rewrite decide_True by done. split; [reflexivity|exact Hp].
    + intros (m & Hm & Hp). case_decide as D; [|done]. injection D as -> ->. injection Hm as <-. eexists. split; [by left|]. split; [is_located|exact Hp].
Qed.

(** Refuted without that condition: pods of application x--y in namespace z and of
    application x in namespace y--z end up in one HealthView, and one of the two
    applications has none. *)
Definition mixed : list delta := [Delta Added (an_app "z" "p1" "x--y" "True"); Delta Added (an_app "y--z" "p2" "x" "True")].
Theorem C74_mixed_refuted :
  history_ok clean [pod_kind] ∅ mixed /\ each monitored mixed
  /\ all_ok <$> run_json pods_json health_view [pod_kind] mixed = Some true
  /\ pods_of "z" "x--y" (after mixed) = [an_app "z" "p1" "x--y" "True"] /\ run_at pods_json health_view [pod_kind] mixed "z" "x--y" = None
  /\ pods_of "y--z" "x" (after mixed) = [an_app "y--z" "p2" "x" "True"]
  /\ run_at pods_json health_view [pod_kind] mixed "y--z" "x" = Some (view_of "y--z" "x" [JMap [("podName", JStr "p2"); ("ready", JStr "True")]; JMap [("podName", JStr "p1"); ("ready", JStr "True")]]).
Proof.
  split_and!; [| |vm_compute; reflexivity..].
  - repeat (split; [an_event|]). exact I.
  - repeat (apply List.Forall_cons; [eexists _, _, _; split; [is_located|split; [reflexivity|split; [a_text|split; [reflexivity|vm_compute; a_text]]]]|]). apply List.Forall_nil.
Qed.
Print Assumptions C74_mixed_refuted.

(** The hypotheses of [C51_runs_partial], for the first of these controllers. *)
Example ex_C51_runs : exists p, unmarshal_pipeline pods_json = Val p /\ Forall stage_clean p /\ length p = 2%nat
  /\ history_ok clean [pod_kind] ∅ pod_events /\ events_on (fun k d => monitored d /\ get_kind d = k) pod_events
  /\ runs_on [pod_kind] (fun k d => monitored d /\ get_kind d = k) p (fun _ => True)
  /\ forall pre post R, pod_events = (pre ++ post)%list -> yields (fun l => l) [pod_kind] p (after pre) R -> one_per_name R.
Proof.
  destruct ex_C74_health as (HP & HQ & HO & _ & _ & HE & _ & HH & HM & HS & _). eexists. split; [exact pods_stages|]. split_and!; [|done|exact HH| | |].
  - repeat (apply List.Forall_cons; [apply (C51_tidy _ _ HE); vm_compute; reflexivity|]). apply List.Forall_nil.
  - eapply each_on; [|exact HH|exact HM]. apply List.Forall_cons; [done|apply List.Forall_nil].
  - exact (pd_runs HP HO HE HQ).
  - intros pre post R E HY. assert (history_ok clean [pod_kind] ∅ pre /\ each monitored pre) as [H1 H2].
    { rewrite E in HH, HM. apply PipeProofs.history_app in HH as [HH _]. by apply Forall_app in HM as [HM _]. }
    eapply (pd_names HP HQ HO (fun l => l)); [done|exact H1|exact H2| |exact HY]. by eapply HS.
Qed.
