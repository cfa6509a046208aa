(** The pods that the source of the health monitor selects. *)
From Verif Require Import JsonModel ObjModel ValueModel PipeJsonModel StageModel PredicateModel ExampleModel JsonSpec CleanSpec PipelineSpec PredicateSpec ExampleSpec.
#[local] Open Scope string_scope.

(** The pod has the label "dcontroller.io/health-monitor: enabled". *)
Definition enabled (d : jobj) : bool := monitor_label (get_labels d).
(** What a watch on pods delivers. *)
Definition pod_shaped `{FloatFmt} (m : jobj) : Prop :=
  owf m /\ clean (stripped m) = true /\ get_gvk m = pod_kind /\ is_Some (parse_gv (get_api_version m)) /\ PipelineSpec.plain (obj_id m).
Definition pod_watch `{FloatFmt} (evs : list wevent) : Prop :=
  informer ∅ evs /\ forall e m, In e evs -> subject e = Some m -> pod_shaped m /\ (enabled m = true -> monitored (stripped m)).
(** The pods of an application that are enabled. *)
Definition enabled_of (ns a : string) (w : world) : list jobj := List.filter enabled (pods_of ns a w).
