(** Model of the operator of examples/endpointslice-controller, the default
    specification, as the JSON that the decoder reads. *)
From Verif Require Export JsonModel PipeJsonModel ExampleModel.
#[local] Open Scope string_scope.

(** endpointslice-controller-spec.yaml:7-9, 22-23, 32-35 and 73-74 the sources and
    targets; a view belongs to the group of its operator (main.go:35) *)
Definition service_view : gvk := GVK "test-ep-operator.view.dcontroller.io" "v1alpha1" "ServiceView".
Definition endpoint_slice : gvk := GVK "discovery.k8s.io" "v1" "EndpointSlice".
Definition endpoint_view : gvk := GVK "test-ep-operator.view.dcontroller.io" "v1alpha1" "EndpointView".
(** main.go:38 and endpointslice-controller-spec.yaml:12, 41 the paths *)
Definition enabled_path : string := "$[""metadata""][""annotations""][""dcontroller.io/endpointslice-controller-enabled""]".
Definition slice_path : string := "$[""EndpointSlice""][""metadata""][""labels""][""kubernetes.io/service-name""]".
(** endpointslice-controller-spec.yaml:10-21 *)
Definition ports_json : json :=
  JList
    [obj [("@select", obj [("@exists", JStr enabled_path)])];
     obj [("@project",
       obj [("metadata", obj [("name", JStr "$.metadata.name"); ("namespace", JStr "$.metadata.namespace")]);
            ("spec", obj [("ports", JStr "$.spec.ports"); ("serviceName", JStr "$.metadata.name"); ("type", JStr "$.spec.type")])])];
     obj [("@unwind", JStr "$.spec.ports")]].
(** endpointslice-controller-spec.yaml:36-72 *)
Definition slices_json : json :=
  JList
    [obj [("@join",
       call "@and"
         [call "@eq" [JStr "$.ServiceView.spec.serviceName"; JStr slice_path];
          call "@eq" [JStr "$.ServiceView.metadata.namespace"; JStr "$.EndpointSlice.metadata.namespace"]])];
     obj [("@project",
       obj [("endpoints", JStr "$.EndpointSlice.endpoints");
            ("metadata", obj [("name", JStr "$.ServiceView.metadata.name"); ("namespace", JStr "$.ServiceView.metadata.namespace")]);
            ("spec", JStr "$.ServiceView.spec")])];
     obj [("@unwind", JStr "$.endpoints")];
     obj [("@select", call "@eq" [JStr "$.endpoints.conditions.ready"; JBool true])];
     obj [("@unwind", JStr "$.endpoints.addresses")];
     obj [("@project",
       obj [("metadata", obj [("namespace", JStr "$.metadata.namespace")]);
            ("spec", obj [("address", JStr "$.endpoints.addresses"); ("port", JStr "$.spec.ports.port"); ("protocol", JStr "$.spec.ports.protocol");
                          ("serviceName", JStr "$.spec.serviceName"); ("targetPort", JStr "$.spec.ports.targetPort"); ("type", JStr "$.spec.type")])])];
     obj [("@project",
       JList [obj [("$.", JStr "$.")];
              obj [("metadata", obj [("name", call "@concat" [JStr "$.spec.serviceName"; JStr "-"; obj [("@hash", JStr "$.spec")]])])]])]].
(** endpointslice-controller-gather-spec.yaml:11-27 *)
Definition named_ports_json : json :=
  JList
    [obj [("@select", obj [("@exists", JStr enabled_path)])];
     obj [("@project",
       obj [("metadata", obj [("name", JStr "$.metadata.name"); ("namespace", JStr "$.metadata.namespace")]);
            ("spec", obj [("ports", JStr "$.spec.ports"); ("serviceName", JStr "$.metadata.name"); ("type", JStr "$.spec.type")])])];
     obj [("@unwind", JStr "$.spec.ports")];
     obj [("@project",
       obj [("metadata", obj [("name", call "@concat" [JStr "$.spec.serviceName"; JStr "-"; JStr "$.spec.ports.protocol"; JStr "-"; JStr "$.spec.ports.port"]);
                              ("namespace", JStr "$.metadata.namespace")]);
            ("spec", JStr "$.spec")])]].
(** endpointslice-controller-gather-spec.yaml:44-87 *)
Definition gather_json : json :=
  JList
    [obj [("@join",
       call "@and"
         [call "@eq" [JStr "$.ServiceView.spec.serviceName"; JStr slice_path];
          call "@eq" [JStr "$.ServiceView.metadata.namespace"; JStr "$.EndpointSlice.metadata.namespace"]])];
     obj [("@project",
       obj [("endpoints", JStr "$.EndpointSlice.endpoints");
            ("id", obj [("name", JStr "$.ServiceView.spec.serviceName"); ("namespace", JStr "$.ServiceView.metadata.namespace"); ("port", JStr "$.ServiceView.spec.ports.port");
                        ("protocol", JStr "$.ServiceView.spec.ports.protocol"); ("type", JStr "$.ServiceView.spec.type")]);
            ("metadata", obj [("name", JStr "$.ServiceView.metadata.name"); ("namespace", JStr "$.ServiceView.metadata.namespace")]);
            ("spec", JStr "$.ServiceView.spec")])];
     obj [("@unwind", JStr "$.endpoints")];
     obj [("@select", call "@eq" [JStr "$.endpoints.conditions.ready"; JBool true])];
     obj [("@unwind", JStr "$.endpoints.addresses")];
     call "@gather" [JStr "$.id"; JStr "$.endpoints.addresses"];
     obj [("@project",
       obj [("metadata", obj [("name", call "@concat" [JStr "$.id.name"; JStr "-"; JStr "$.id.protocol"; JStr "-"; JStr "$.id.port"]); ("namespace", JStr "$.metadata.namespace")]);
            ("spec", obj [("addresses", JStr "$.endpoints.addresses"); ("port", JStr "$.spec.ports.port"); ("protocol", JStr "$.spec.ports.protocol");
                          ("serviceName", JStr "$.spec.serviceName"); ("targetPort", JStr "$.spec.ports.targetPort"); ("type", JStr "$.spec.type")])])]].
