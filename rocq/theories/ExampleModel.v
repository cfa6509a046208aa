(** Model of operators that are shipped as examples: the pipelines of
    examples/configmap-deployment-controller and examples/service-health-monitor,
    as the JSON that the decoder reads.

    Simplification: the label selector of the source Pod is not part of a pipeline;
    it is a function on labels, used with the sources of PredicateModel. *)
From Verif Require Export JsonModel PipeJsonModel.
#[local] Open Scope string_scope.

Definition obj (m : list (string * json)) : json := JMap m.
(** "@op": [a, b, ...] *)
Definition call (op : string) (args : list json) : json := JMap [(op, JList args)].

(** configdeployment-operator.yaml:8-14 the sources, 39-42 the target *)
Definition config_map : gvk := GVK "" "v1" "ConfigMap".
Definition deployment : gvk := GVK "apps" "v1" "Deployment".
Definition config_deployment : gvk := GVK "dcontroller.io" "v1alpha1" "ConfigDeployment".
(** configdeployment-operator.yaml:15-38 *)
Definition configdep_json : json :=
  JList
    [obj [("@join",
       call "@and"
         [call "@eq" [JStr "$.ConfigMap.metadata.name"; JStr "$.ConfigDeployment.spec.configMap"];
          call "@eq" [JStr "$.Deployment.metadata.name"; JStr "$.ConfigDeployment.spec.deployment"];
          call "@eq" [JStr "$.ConfigMap.metadata.namespace"; JStr "$.Deployment.metadata.namespace"];
          call "@eq" [JStr "$.ConfigMap.metadata.namespace"; JStr "$.ConfigDeployment.metadata.namespace"]])];
     obj [("@project",
       obj [("metadata", obj [("name", JStr "$.Deployment.metadata.name"); ("namespace", JStr "$.Deployment.metadata.namespace")]);
            ("spec", obj [("template", obj [("metadata", obj [("annotations",
               obj [("dcontroller.io/configmap-version", JStr "$.ConfigMap.metadata.resourceVersion")])])])])])]].

(** svc-health-operator.yaml:9-14, 31-32, 36-39 and 64-67 the sources and targets; a view
    belongs to the group of its operator *)
Definition pod_kind : gvk := GVK "" "v1" "Pod".
Definition service : gvk := GVK "" "v1" "Service".
Definition health_view : gvk := GVK "svc-health-operator.view.dcontroller.io" "v1alpha1" "HealthView".
Definition app_path : string := "$.metadata.labels['app']".
Definition ready_path : string := "$.status.conditions[?(@.type=='Ready')].status".
(** svc-health-operator.yaml:12-14: what LabelSelectorPredicate of controller-runtime
    makes of matchLabels with one entry. *)
Definition monitor_label (labels : option (list (string * string))) : bool :=
  existsb (fun kv => String.eqb kv.1 "dcontroller.io/health-monitor" && String.eqb kv.2 "enabled") (default [] labels).
(** svc-health-operator.yaml:15-30 *)
Definition pods_json : json :=
  JList
    [obj [("@project",
       obj [("metadata", obj [("name", JStr app_path); ("namespace", JStr "$.metadata.namespace")]);
            ("pods", obj [("podName", JStr "$.metadata.name"); ("ready", JStr ready_path)])])];
     call "@gather" [call "@concat" [JStr "$.metadata.name"; JStr "--"; JStr "$.metadata.namespace"]; JStr "$.pods"]].
(** svc-health-operator.yaml:40-63 *)
Definition health_json : json :=
  JList
    [obj [("@join",
       call "@and"
         [call "@eq" [JStr "$.HealthView.metadata.name"; JStr "$.Service.metadata.name"];
          call "@eq" [JStr "$.HealthView.metadata.namespace"; JStr "$.Service.metadata.namespace"]])];
     obj [("@project",
       obj [("metadata",
         obj [("annotations", obj [("dcontroller.io/pod-ready",
                call "@concat"
                  [obj [("@string", obj [("@len", call "@filter" [call "@eq" [JStr "$$.ready"; JStr "True"]; JStr "$.HealthView.pods"])])];
                   JStr "/";
                   obj [("@string", obj [("@len", JStr "$.HealthView.pods")])]])]);
              ("name", JStr "$.Service.metadata.name");
              ("namespace", JStr "$.Service.metadata.namespace")])])]].
