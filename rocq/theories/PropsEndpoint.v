(** Property C75: the EndpointSlice operator lists exactly the ready endpoints of the
    annotated Services. *)
From Verif Require Import JsonModel ObjModel ZSetModel OpsModel ExecModel PipelineModel ValueModel PipeJsonModel StageModel ExampleModel EndpointModel.
From Verif Require Import ExprSpec ZSetSpec OpsSpec ExecSpec JsonSpec CleanSpec PipelineSpec StageSpec StageRunSpec ExampleSpec EndpointSpec.
From Verif Require Import ZSetProofs2 PipeProofs2 PipeProofs ExampleProofs2 EndpointProofs EndpointProofs2 TestExpr TestPipe TestStage PropsPipeline PropsStage PropsStageRun TestExample PropsExample ReconcileProofs TestEndpoint.
#[local] Open Scope string_scope.

(** First controller: after every history of Services no event has failed, and there
    is a ServiceView exactly for each port of each Service that has the annotation.
    It is called after the Service and the place of the port, and holds the port, the
    name and the type of the Service.
    Missing from the full statement: JSONPath is assumed to read and to write fields. *)
Theorem C75_ports_partial : forall (FF : FloatFmt) (EE : ExprEnv) sortv p pp o ds,
  reads_fields -> sets_fields -> reads_quoted -> is_order iterate -> (forall l, Permutation (sortv l) l) -> fmt_ok -> fmt_inj -> env_clean ->
  unmarshal_pipeline ports_json = Val p -> declare clean service_view [service] p = Some pp ->
  order_ok o -> history_ok clean [service] ∅ ds -> each service_object ds ->
  exists p' outs, pipe_run clean sortv o 0 pp ds = (p', map Some outs)
    /\ forall ns n m, apply_ops no_objects (concat outs) (ns, n) = Some m <->
         exists d svc i port, In d (of_kind "Service" (after ds)) /\ located d ns svc /\ annotation_of d <> JNull /\ ports_of d !! i = Some port
           /\ n = port_name svc i /\ m = port_view ns n svc (at_ ["spec"; "type"] d) port.
Proof. intros FF EE sortv p pp o ds HP HF HQ HO HS F1 F2 HE HU HD Ho HH HC. by apply (services_hold HP HF HQ HO HE sortv p). Qed.
Print Assumptions C75_ports_partial.

(** Second controller: after every history of ServiceViews and EndpointSlices no event
    has failed, and there is an EndpointView exactly for each view and each ready
    address of a slice of the same Service and namespace.  It is called after the
    Service and the hash of its specification.
    Missing from the full statement: no two of them may have the same name
    ([C75_shared_refuted]), the rest as above. *)
Theorem C75_endpoints_partial : forall (FF : FloatFmt) (EE : ExprEnv) sortv p pp o ds,
  reads_fields -> sets_fields -> reads_quoted -> is_order iterate -> (forall l, Permutation (sortv l) l) -> fmt_ok -> fmt_inj -> env_clean ->
  unmarshal_pipeline slices_json = Val p -> declare clean endpoint_view [service_view; endpoint_slice] p = Some pp ->
  order_ok o -> history_ok clean [service_view; endpoint_slice] ∅ ds -> each endpoint_object ds ->
  (forall pre post, ds = (pre ++ post)%list -> apart (after pre)) ->
  exists p' outs, pipe_run clean sortv o 0 pp ds = (p', map Some outs)
    /\ forall ns n m, apply_ops no_objects (concat outs) (ns, n) = Some m <->
         exists svc spec, In (JStr ns, JStr svc, spec) (endpoints (after ds)) /\ n = svc +:+ "-" +:+ hash_of spec /\ m = endpoint_out ns n spec.
Proof. intros FF EE sortv p pp o ds HP HF HQ HO HS F1 F2 HE HU HD Ho HH HC HA. by apply (endpoints_hold HP HF HQ HO HE sortv p). Qed.
Print Assumptions C75_endpoints_partial.

(** Both: once the second controller has seen what the first one wrote, there is an
    EndpointView exactly for each annotated Service, each of its ports and each ready
    address of its slices. *)
Theorem C75_discovery_partial : forall (FF : FloatFmt) (EE : ExprEnv) sortv p1 pp1 o1 ds1 p1' outs1 p2 pp2 o2 ds2 p2' outs2,
  reads_fields -> sets_fields -> reads_quoted -> is_order iterate -> (forall l, Permutation (sortv l) l) -> fmt_ok -> fmt_inj -> env_clean ->
  unmarshal_pipeline ports_json = Val p1 -> declare clean service_view [service] p1 = Some pp1 ->
  order_ok o1 -> history_ok clean [service] ∅ ds1 -> each service_object ds1 -> pipe_run clean sortv o1 0 pp1 ds1 = (p1', map Some outs1) ->
  unmarshal_pipeline slices_json = Val p2 -> declare clean endpoint_view [service_view; endpoint_slice] p2 = Some pp2 ->
  order_ok o2 -> history_ok clean [service_view; endpoint_slice] ∅ ds2 -> each endpoint_object ds2 -> (forall pre post, ds2 = (pre ++ post)%list -> apart (after pre)) ->
  pipe_run clean sortv o2 0 pp2 ds2 = (p2', map Some outs2) ->
  sees_views (apply_ops no_objects (concat outs1)) (after ds2) ->
  forall ns n m, apply_ops no_objects (concat outs2) (ns, n) = Some m <->
    exists d svc port es a, In d (of_kind "Service" (after ds1)) /\ located d ns svc /\ annotation_of d <> JNull /\ In port (ports_of d)
      /\ In es (of_kind "EndpointSlice" (after ds2)) /\ service_of es = JStr svc /\ at_ ["metadata"; "namespace"] es = JStr ns /\ In a (ready_addresses es)
      /\ let spec := JMap [("address", a); ("port", at_path ["port"] port); ("protocol", at_path ["protocol"] port); ("serviceName", JStr svc);
                           ("targetPort", at_path ["targetPort"] port); ("type", at_ ["spec"; "type"] d)] in
         n = svc +:+ "-" +:+ hash_of spec /\ m = endpoint_out ns n spec.
Proof.
  intros FF EE sortv p1 pp1 o1 ds1 p1' outs1 p2 pp2 o2 ds2 p2' outs2 HP HF HQ HO HS F1 F2 HE U1 D1 O1 H1 M1 R1 U2 D2 O2 H2 M2 A2 R2 HV ns n m.
  destruct (C75_ports_partial FF EE sortv p1 pp1 o1 ds1) as (q1 & os1 & X1 & T1); [done..|].
  destruct (C75_endpoints_partial FF EE sortv p2 pp2 o2 ds2) as (q2 & os2 & X2 & T2); [done..|].
  rewrite R1 in X1. injection X1 as _ X1. apply (inj (map Some)) in X1 as <-. rewrite R2 in X2. injection X2 as _ X2. apply (inj (map Some)) in X2 as <-.
  assert (BL : forall sv es s t, at_ ["spec"; "serviceName"] sv = JStr s -> at_ ["metadata"; "namespace"] sv = JStr t ->
    belongs sv es = true <-> service_of es = JStr s /\ at_ ["metadata"; "namespace"] es = JStr t).
  { intros sv es s t Y1 Y2. unfold belongs. rewrite Y1, Y2. cbn [same_text]. rewrite andb_true_iff. by rewrite !is_str_true. }
  rewrite T2. split.
  - intros (svc & spec & HI & -> & ->). unfold endpoints in HI. apply in_flat_map in HI as (sv & Z1 & HI). apply in_flat_map in HI as (es & Z2 & HI).
    destruct (belongs sv es) eqn:B; [|done]. apply in_map_iff in HI as (a & E & Ha).
    apply HV in Z1 as ([ns' n'] & Z1). apply T1 in Z1 as (d & svc' & i & port & Y1 & Y2 & Y3 & Y4 & -> & ->).
    apply (BL _ _ svc' ns') in B as [B1 B2]; [|done|done]. injection E as -> -> <-. exists d, svc, port, es, a.
    split_and!; [done|done|done| |done|done|done|done|by split]. apply elem_of_list_In. by apply (elem_of_list_lookup_2 _ i).
  - intros (d & svc & port & es & a & Y1 & Y2 & Y3 & Y4 & Z2 & B1 & B2 & Ha & -> & ->). eexists svc, _. split; [|by split].
    apply elem_of_list_In, elem_of_list_lookup in Y4 as [i Y4]. set (sv := port_view ns (port_name svc i) svc (at_ ["spec"; "type"] d) port).
    unfold endpoints. apply in_flat_map. exists sv. split.
    + apply HV. exists (ns, port_name svc i). apply T1. exists d, svc, i, port. by split_and!.
    + apply in_flat_map. exists es. split; [done|]. rewrite (proj2 (BL sv es svc ns eq_refl eq_refl)) by done. apply in_map_iff. by exists a.
Qed.
Print Assumptions C75_discovery_partial.

(** *** Examples *)
#[local] Existing Instance ep_env.
Definition a_port (n : Z) (proto : string) : json := JMap [("port", JInt n); ("protocol", JStr proto); ("targetPort", JInt n)].
Definition on : list (string * json) := [("annotations", JMap [("dcontroller.io/endpointslice-controller-enabled", JStr "true")])].
Definition a_web (meta : list (string * json)) (n : string) (ports : list json) : jobj :=
  [("apiVersion", JStr "v1"); ("kind", JStr "Service"); ("metadata", JMap (meta ++ [("name", JStr n); ("namespace", JStr "default")])%list);
   ("spec", JMap [("ports", JList ports); ("type", JStr "ClusterIP")])].
Definition service_events : list delta :=
  [Delta Added (a_web on "web" [a_port 80 "TCP"]); Delta Added (a_web [] "db" [a_port 90 "TCP"]); Delta Updated (a_web on "web" [a_port 80 "TCP"; a_port 53 "UDP"])].
Definition view_0 : jobj := port_view "default" "web-0" "web" (JStr "ClusterIP") (a_port 80 "TCP").
Definition view_1 : jobj := port_view "default" "web-1" "web" (JStr "ClusterIP") (a_port 53 "UDP").
Definition an_endpoint (ready : bool) (addrs : list string) : json := JMap [("addresses", JList (map JStr addrs)); ("conditions", JMap [("ready", JBool ready)])].
Definition a_slice (n svc : string) (es : list json) : jobj :=
  [("apiVersion", JStr "discovery.k8s.io/v1"); ("endpoints", JList es); ("kind", JStr "EndpointSlice");
   ("metadata", JMap [("labels", JMap [("kubernetes.io/service-name", JStr svc)]); ("name", JStr n); ("namespace", JStr "default")])].
Definition endpoint_events : list delta :=
  [Delta Added view_0; Delta Added (a_slice "web-a" "web" [an_endpoint true ["10.0.0.1"]; an_endpoint false ["10.0.0.2"]]); Delta Added view_1; Delta Added (a_slice "db-a" "db" [an_endpoint true ["10.0.0.9"]]);
   Delta Updated (a_slice "web-a" "web" [an_endpoint false ["10.0.0.1"]; an_endpoint true ["10.0.0.2"; "10.0.0.3"]])].
Definition spec_at (a : string) (n : Z) (proto : string) : json :=
  JMap [("address", JStr a); ("port", JInt n); ("protocol", JStr proto); ("serviceName", JStr "web"); ("targetPort", JInt n); ("type", JStr "ClusterIP")].
Definition name_for (spec : json) : string := "web-" +:+ hash_of spec.
Definition run_list (j : json) (target : gvk) (sources : list gvk) (ds : list delta) : option (list (option (list delta))) :=
  match unmarshal_pipeline j with Val p => (fun pp => (pipe_run clean (fun l => l) std_order 0 pp ds).2) <$> declare clean target sources p | _ => None end.
Definition left_by (j : json) (target : gvk) (sources : list gvk) (ds : list delta) (ns n : string) : option jobj :=
  rs ← run_list j target sources ds; apply_ops no_objects (concat (omap id rs)) (ns, n).
Definition run_ep := left_by slices_json endpoint_view [service_view; endpoint_slice].
Ltac all_of := repeat (apply List.Forall_cons; [first [exact I|a_text]|]); apply List.Forall_nil.
Example ex_C75_ports :
  (reads_fields /\ sets_fields /\ reads_quoted /\ is_order iterate /\ fmt_ok /\ fmt_inj /\ env_clean /\ order_ok std_order)
  /\ history_ok clean [service] ∅ service_events /\ each service_object service_events
  /\ all_ok <$> run_list ports_json service_view [service] service_events = Some true
  /\ map (left_by ports_json service_view [service] service_events "default") ["web-0"; "web-1"; "web-2"; "db-0"] = [Some view_0; Some view_1; None; None].
Proof.
  split_and!; [exact ep_fields|exact ep_sets|exact ep_quoted|exact ep_order|exact sci_ok|exact sci_inj|exact ep_env_clean|exact std_order_ok| | |vm_compute; reflexivity..].
  - repeat (split; [an_event|]). exact I.
  - repeat (apply List.Forall_cons; [split_and!; [eexists _, _; is_located|exact I|a_text]|]). apply List.Forall_nil.
Qed.
Lemma endpoint_apart : forall pre post, endpoint_events = (pre ++ post)%list -> apart (after pre).
Proof.
  intros pre post E. apply prefix_take in E as [Hn ->]. revert Hn. generalize (length pre). intros n Hn. cbn in Hn.
  do 6 (destruct n as [|n]; [apply (bool_decide_eq_true _); vm_compute; reflexivity|]). lia.
Qed.
Example ex_C75_endpoints :
  (reads_fields /\ sets_fields /\ reads_quoted /\ is_order iterate /\ fmt_ok /\ fmt_inj /\ env_clean /\ order_ok std_order)
  /\ history_ok clean [service_view; endpoint_slice] ∅ endpoint_events /\ each endpoint_object endpoint_events
  /\ (forall pre post, endpoint_events = (pre ++ post)%list -> apart (after pre))
  /\ all_ok <$> run_list slices_json endpoint_view [service_view; endpoint_slice] endpoint_events = Some true
  /\ map (fun s => run_ep endpoint_events "default" (name_for s)) [spec_at "10.0.0.1" 80 "TCP"; spec_at "10.0.0.2" 80 "TCP"; spec_at "10.0.0.3" 53 "UDP"]
     = [None; Some (endpoint_out "default" (name_for (spec_at "10.0.0.2" 80 "TCP")) (spec_at "10.0.0.2" 80 "TCP"));
        Some (endpoint_out "default" (name_for (spec_at "10.0.0.3" 53 "UDP")) (spec_at "10.0.0.3" 53 "UDP"))].
Proof.
  split_and!; [exact ep_fields|exact ep_sets|exact ep_quoted|exact ep_order|exact sci_ok|exact sci_inj|exact ep_env_clean|exact std_order_ok| | |exact endpoint_apart|vm_compute; reflexivity..].
  - repeat (split; [an_event|]). exact I.
  - repeat (apply List.Forall_cons; [split_and!; [eexists _, _; is_located|try (intros E; vm_compute in E; discriminate E)..]|]); [..|apply List.Forall_nil].
    1, 3: intros _; split; [eexists; split_and!; [reflexivity|a_text|reflexivity]|all_of].
    all: intros _; split_and!; [a_text|exact I|]; repeat (apply List.Forall_cons; [split_and!; [exact I|exact I|all_of]|]); apply List.Forall_nil.
Qed.
(** The second history has the views that the first one ends with. *)
Definition first_outs : list delta := concat (omap id (default [] (run_list ports_json service_view [service] service_events))).
Example ex_C75_discovery : sees_views (apply_ops no_objects first_outs) (after endpoint_events).
Proof.
  assert (E1 : of_kind "ServiceView" (after endpoint_events) = [view_0; view_1]) by (vm_compute; reflexivity).
  assert (E2 : map (fun x => obj_id (d_obj x)) first_outs = [("default", "web-0"); ("default", "web-1")]) by (vm_compute; reflexivity).
  assert (E3 : apply_ops no_objects first_outs ("default", "web-0") = Some view_0) by (vm_compute; reflexivity).
  assert (E4 : apply_ops no_objects first_outs ("default", "web-1") = Some view_1) by (vm_compute; reflexivity).
  revert E2 E3 E4. generalize first_outs. generalize view_0 view_1 E1. clear E1. generalize (after endpoint_events). intros w v0 v1 E1 outs E2 E3 E4 d. rewrite E1. split.
  - intros [<-|[<-|[]]]; [by exists ("default", "web-0")|by exists ("default", "web-1")].
  - intros (i & Hi). destruct (decide (i = ("default", "web-0"))) as [->|N0]; [rewrite E3 in Hi; injection Hi as <-; by left|].
    destruct (decide (i = ("default", "web-1"))) as [->|N1]; [rewrite E4 in Hi; injection Hi as <-; right; by left|].
    rewrite apply_ops_notin in Hi; [done|]. rewrite E2. intros [<-|[<-|[]]]; done.
Qed.

(** Refuted without that condition: while an address is in two slices of its Service,
    as Kubernetes allows, both make the same view, and when one of them goes away the
    view is deleted although the other slice still has the address. *)
Definition two_slices : list delta :=
  [Delta Added view_0; Delta Added (a_slice "web-a" "web" [an_endpoint true ["10.0.0.1"]]); Delta Added (a_slice "web-b" "web" [an_endpoint true ["10.0.0.1"]]);
   Delta Deleted (a_slice "web-b" "web" [an_endpoint true ["10.0.0.1"]])].
Theorem C75_shared_refuted :
  history_ok clean [service_view; endpoint_slice] ∅ two_slices
  /\ endpoints (after two_slices) = [(JStr "default", JStr "web", spec_at "10.0.0.1" 80 "TCP")]
  /\ is_Some (run_ep (take 3 two_slices) "default" (name_for (spec_at "10.0.0.1" 80 "TCP")))
  /\ all_ok <$> run_list slices_json endpoint_view [service_view; endpoint_slice] two_slices = Some true
  /\ run_ep two_slices "default" (name_for (spec_at "10.0.0.1" 80 "TCP")) = None.
Proof.
  split_and!; [|vm_compute; reflexivity|vm_compute; by eexists|vm_compute; reflexivity..].
  repeat (split; [an_event|]). exact I.
Qed.
Print Assumptions C75_shared_refuted.
