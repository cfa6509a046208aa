(** Property C76: the other specification of the EndpointSlice operator gathers all
    ready addresses of a port of a Service in one object. *)
From Verif Require Import JsonModel ObjModel ZSetModel OpsModel ExecModel PipelineModel ValueModel PipeJsonModel StageModel ExampleModel EndpointModel.
From Verif Require Import ExprSpec ZSetSpec OpsSpec ExecSpec JsonSpec CleanSpec PipelineSpec StageSpec StageRunSpec ExampleSpec EndpointSpec EndpointSpec2.
From Verif Require Import ZSetProofs2 PipeProofs2 PipeProofs ExampleProofs2 EndpointProofs EndpointProofs2 EndpointProofs3 EndpointProofs4 TestExpr TestPipe TestStage PropsPipeline PropsStage PropsStageRun TestExample PropsExample ReconcileProofs TestEndpoint PropsEndpoint.
#[local] Open Scope string_scope.

(** First controller: after every history of Services no event has failed, and there
    is a ServiceView exactly for each port of each Service that has the annotation.
    It is called after the Service, the protocol and the number of the port.
    Missing from the full statement: JSONPath is assumed to read and to write fields. *)
Theorem C76_ports_partial : forall (FF : FloatFmt) (EE : ExprEnv) sortv p pp o ds,
  reads_fields -> sets_fields -> reads_quoted -> is_order iterate -> (forall l, Permutation (sortv l) l) -> fmt_ok -> fmt_inj -> env_clean ->
  unmarshal_pipeline named_ports_json = Val p -> declare clean service_view [service] p = Some pp ->
  order_ok o -> history_ok clean [service] ∅ ds -> each named_service ds ->
  exists p' outs, pipe_run clean sortv o 0 pp ds = (p', map Some outs)
    /\ forall ns n m, apply_ops no_objects (concat outs) (ns, n) = Some m <->
         exists d svc port pr k, In d (of_kind "Service" (after ds)) /\ located d ns svc /\ annotation_of d <> JNull /\ In port (ports_of d) /\ a_port_of port pr k
           /\ n = full_name svc pr k /\ m = port_view ns n svc (at_ ["spec"; "type"] d) port.
Proof. intros FF EE sortv p pp o ds HP HF HQ HO HS F1 F2 HE HU HD Ho HH HC. by apply (named_hold HP HF HQ HO HE sortv p). Qed.
Print Assumptions C76_ports_partial.

(** Second controller: after every history of ServiceViews and EndpointSlices no event
    has failed, and there is an EndpointView exactly for each view with ready addresses.
    It has the name of the view and all these addresses, each as often as slices list
    it.  In contrast to [C75_endpoints_partial] slices may share addresses. *)
Theorem C76_gathered_partial : forall (FF : FloatFmt) (EE : ExprEnv) sortv p pp o ds,
  reads_fields -> sets_fields -> reads_quoted -> is_order iterate -> (forall l, Permutation (sortv l) l) -> fmt_ok -> fmt_inj -> env_clean ->
  unmarshal_pipeline gather_json = Val p -> declare clean endpoint_view [service_view; endpoint_slice] p = Some pp ->
  order_ok o -> history_ok clean [service_view; endpoint_slice] ∅ ds -> each gather_object ds ->
  exists p' outs, pipe_run clean sortv o 0 pp ds = (p', map Some outs)
    /\ forall ns n, match apply_ops no_objects (concat outs) (ns, n) with
         | None => forall sv, In sv (of_kind "ServiceView" (after ds)) -> located sv ns n -> addresses_of sv (after ds) = []
         | Some m => exists sv l, In sv (of_kind "ServiceView" (after ds)) /\ located sv ns n /\ addresses_of sv (after ds) <> []
             /\ Permutation l (addresses_of sv (after ds)) /\ m = gathered_out ns n l sv
         end.
Proof. intros FF EE sortv p pp o ds HP HF HQ HO HS F1 F2 HE HU HD Ho HH HC. by apply (gathered_hold HP HF HQ HO HE sortv p). Qed.
Print Assumptions C76_gathered_partial.

(** Both: once the second controller has seen what the first one wrote, there is one
    EndpointView for each port of each annotated Service with ready addresses, and it
    has them all. *)
Theorem C76_discovery_partial : forall (FF : FloatFmt) (EE : ExprEnv) sortv p1 pp1 o1 ds1 p1' outs1 p2 pp2 o2 ds2 p2' outs2,
  reads_fields -> sets_fields -> reads_quoted -> is_order iterate -> (forall l, Permutation (sortv l) l) -> fmt_ok -> fmt_inj -> env_clean ->
  unmarshal_pipeline named_ports_json = Val p1 -> declare clean service_view [service] p1 = Some pp1 ->
  order_ok o1 -> history_ok clean [service] ∅ ds1 -> each named_service ds1 -> pipe_run clean sortv o1 0 pp1 ds1 = (p1', map Some outs1) ->
  unmarshal_pipeline gather_json = Val p2 -> declare clean endpoint_view [service_view; endpoint_slice] p2 = Some pp2 ->
  order_ok o2 -> history_ok clean [service_view; endpoint_slice] ∅ ds2 -> each gather_object ds2 -> pipe_run clean sortv o2 0 pp2 ds2 = (p2', map Some outs2) ->
  sees_views (apply_ops no_objects (concat outs1)) (after ds2) ->
  forall ns n,
    let wanted d svc port pr k := In d (of_kind "Service" (after ds1)) /\ located d ns svc /\ annotation_of d <> JNull /\ In port (ports_of d) /\ a_port_of port pr k /\ n = full_name svc pr k in
    match apply_ops no_objects (concat outs2) (ns, n) with
    | None => forall d svc port pr k, wanted d svc port pr k -> service_addresses ns svc (after ds2) = []
    | Some m => exists d svc port pr k l, wanted d svc port pr k /\ service_addresses ns svc (after ds2) <> [] /\ Permutation l (service_addresses ns svc (after ds2))
        /\ m = [("apiVersion", JStr "test-ep-operator.view.dcontroller.io/v1alpha1"); ("kind", JStr "EndpointView"); ("metadata", JMap [("name", JStr n); ("namespace", JStr ns)]);
                ("spec", JMap [("addresses", JList l); ("port", JInt (Z.of_nat k)); ("protocol", JStr pr); ("serviceName", JStr svc);
                               ("targetPort", at_path ["targetPort"] port); ("type", at_ ["spec"; "type"] d)])]
    end.
Proof.
  intros FF EE sortv p1 pp1 o1 ds1 p1' outs1 p2 pp2 o2 ds2 p2' outs2 HP HF HQ HO HS F1 F2 HE U1 D1 O1 H1 M1 R1 U2 D2 O2 H2 M2 R2 HV ns n wanted.
  destruct (C76_ports_partial FF EE sortv p1 pp1 o1 ds1) as (q1 & os1 & X1 & T1); [done..|].
  destruct (C76_gathered_partial FF EE sortv p2 pp2 o2 ds2) as (q2 & os2 & X2 & T2); [done..|].
  rewrite R1 in X1. injection X1 as _ X1. apply (inj (map Some)) in X1 as <-. rewrite R2 in X2. injection X2 as _ X2. apply (inj (map Some)) in X2 as <-.
  specialize (T2 ns n). destruct (apply_ops no_objects (concat outs2) (ns, n)) as [m|].
  - destruct T2 as (sv & l & Z1 & L & HN & Hl & ->). apply HV in Z1 as ([ns' n'] & Z1). apply T1 in Z1 as (d & svc & port & pr & k & Y1 & Y2 & Y3 & Y4 & Y5 & -> & ->).
    pose proof L as (L1 & L2 & _). injection L1 as ->. injection L2 as <-. exists d, svc, port, pr, k, l. split; [by split_and!|]. split; [exact HN|]. split; [exact Hl|].
    destruct Y5 as (A1 & _ & A3). rewrite <-A1, <-A3. reflexivity.
  - intros d svc port pr k (Y1 & Y2 & Y3 & Y4 & Y5 & ->). apply (T2 (port_view ns (full_name svc pr k) svc (at_ ["spec"; "type"] d) port)).
    + apply HV. exists (ns, full_name svc pr k). apply T1. exists d, svc, port, pr, k. by split_and!.
    + destruct Y2 as (_ & _ & N1 & N2). split_and!; [reflexivity|reflexivity|done|by apply full_text].
Qed.
Print Assumptions C76_discovery_partial.

(** *** Examples *)
#[local] Existing Instance ep_env.
Definition tcp_view : jobj := port_view "default" "web-TCP-80" "web" (JStr "ClusterIP") (a_port 80 "TCP").
Definition udp_view : jobj := port_view "default" "web-UDP-53" "web" (JStr "ClusterIP") (a_port 53 "UDP").
Definition gathered (n : string) (l : list string) (k : Z) (proto : string) : jobj :=
  [("apiVersion", JStr "test-ep-operator.view.dcontroller.io/v1alpha1"); ("kind", JStr "EndpointView"); ("metadata", JMap [("name", JStr n); ("namespace", JStr "default")]);
   ("spec", JMap [("addresses", JList (map JStr l)); ("port", JInt k); ("protocol", JStr proto); ("serviceName", JStr "web"); ("targetPort", JInt k); ("type", JStr "ClusterIP")])].
Example ex_C76_ports :
  history_ok clean [service] ∅ service_events /\ each named_service service_events
  /\ all_ok <$> run_list named_ports_json service_view [service] service_events = Some true
  /\ map (left_by named_ports_json service_view [service] service_events "default") ["web-TCP-80"; "web-UDP-53"; "web-0"; "db-TCP-90"] = [Some tcp_view; Some udp_view; None; None].
Proof.
  split_and!; [| |vm_compute; reflexivity..].
  - repeat (split; [an_event|]). exact I.
  - repeat (apply List.Forall_cons; [split; [split_and!; [eexists _, _; is_located|exact I|a_text]|split; [|apply (bool_decide_eq_true _); vm_compute; reflexivity]]|]); [..|apply List.Forall_nil].
    all: match goal with |- Forall _ ?l => let l' := eval vm_compute in l in change l with l' end.
    all: repeat (apply List.Forall_cons; [first [exists "TCP", 80%nat; (split; [reflexivity|split; [split; done|reflexivity]])|exists "TCP", 90%nat; (split; [reflexivity|split; [split; done|reflexivity]])
      |exists "UDP", 53%nat; (split; [reflexivity|split; [split; done|reflexivity]])]|]); apply List.Forall_nil.
Qed.
Definition gather_events : list delta :=
  [Delta Added tcp_view; Delta Added (a_slice "web-a" "web" [an_endpoint true ["10.0.0.1"]; an_endpoint false ["10.0.0.2"]]); Delta Added udp_view; Delta Added (a_slice "db-a" "db" [an_endpoint true ["10.0.0.9"]]);
   Delta Updated (a_slice "web-a" "web" [an_endpoint false ["10.0.0.1"]; an_endpoint true ["10.0.0.2"; "10.0.0.3"]]); Delta Added (a_slice "web-b" "web" [an_endpoint true ["10.0.0.3"]]);
   Delta Deleted udp_view].
Definition run_ga := left_by gather_json endpoint_view [service_view; endpoint_slice].
(** An address in two slices is listed twice, and stays when one of them goes away. *)
Definition shrunk : list delta := (gather_events ++ [Delta Deleted (a_slice "web-b" "web" [an_endpoint true ["10.0.0.3"]])])%list.
Example ex_C76_gathered :
  history_ok clean [service_view; endpoint_slice] ∅ shrunk /\ each gather_object shrunk
  /\ all_ok <$> run_list gather_json endpoint_view [service_view; endpoint_slice] shrunk = Some true
  /\ run_ga (take 2 shrunk) "default" "web-TCP-80" = Some (gathered "web-TCP-80" ["10.0.0.1"] 80 "TCP")
  /\ (l ← run_ga (take 6 shrunk) "default" "web-UDP-53"; Some (length (items (at_ ["spec"; "addresses"] l)))) = Some 3%nat
  /\ run_ga gather_events "default" "web-UDP-53" = None
  /\ (l ← run_ga shrunk "default" "web-TCP-80"; Some (length (items (at_ ["spec"; "addresses"] l)))) = Some 2%nat.
Proof.
  split_and!; [| |vm_compute; reflexivity..].
  - repeat (split; [an_event|]). exact I.
  - repeat (apply List.Forall_cons; [split_and!; [eexists _, _; is_located|try (intros E; vm_compute in E; discriminate E)..]|]); [..|apply List.Forall_nil].
    1, 3, 7: intros _; match goal with |- named_view ?d => let d' := eval vm_compute in (stripped tcp_view) in let e := eval vm_compute in d in
      tryif constr_eq e d' then exists "web", "TCP", 80%nat else exists "web", "UDP", 53%nat end; split_and!; [reflexivity|a_text|reflexivity|split; [reflexivity|split; [split; done|reflexivity]]|reflexivity|a_text|exact I].
    all: intros _; split_and!; [a_text|exact I|]; repeat (apply List.Forall_cons; [split_and!; [exact I|exact I|all_of]|]); apply List.Forall_nil.
Qed.
(** The second history has at first the views that the first one ends with. *)
Definition named_outs : list delta := concat (omap id (default [] (run_list named_ports_json service_view [service] service_events))).
Example ex_C76_discovery : sees_views (apply_ops no_objects named_outs) (after (take 6 gather_events)).
Proof.
  assert (E1 : of_kind "ServiceView" (after (take 6 gather_events)) = [tcp_view; udp_view]) by (vm_compute; reflexivity).
  assert (E2 : map (fun x => obj_id (d_obj x)) named_outs = [("default", "web-TCP-80"); ("default", "web-UDP-53")]) by (vm_compute; reflexivity).
  assert (E3 : apply_ops no_objects named_outs ("default", "web-TCP-80") = Some tcp_view) by (vm_compute; reflexivity).
  assert (E4 : apply_ops no_objects named_outs ("default", "web-UDP-53") = Some udp_view) by (vm_compute; reflexivity).
  revert E2 E3 E4. generalize named_outs. generalize tcp_view udp_view E1. clear E1. generalize (after (take 6 gather_events)). intros w v0 v1 E1 outs E2 E3 E4 d. rewrite E1. split.
  - intros [<-|[<-|[]]]; [by exists ("default", "web-TCP-80")|by exists ("default", "web-UDP-53")].
  - intros (i & Hi). destruct (decide (i = ("default", "web-TCP-80"))) as [->|N0]; [rewrite E3 in Hi; injection Hi as <-; by left|].
    destruct (decide (i = ("default", "web-UDP-53"))) as [->|N1]; [rewrite E4 in Hi; injection Hi as <-; right; by left|].
    rewrite apply_ops_notin in Hi; [done|]. rewrite E2. intros [<-|[<-|[]]]; done.
Qed.
