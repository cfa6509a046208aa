(** What README.md and doc/getting-started.md promise about annotations of pods. *)
From Verif Require Import JsonModel ObjModel ValueModel PipeJsonModel StageModel PipelineSpec ExampleModel ExampleSpec.
#[local] Open Scope string_scope.

(** The patch of a pod that sets one annotation. *)
Definition annotation_patch (ns n k v : string) : jobj :=
  [("apiVersion", JStr "v1"); ("kind", JStr "Pod");
   ("metadata", JMap [("annotations", JMap [(k, JStr v)]); ("name", JStr n); ("namespace", JStr ns)])].
(** The pod has a name and this many containers. *)
Definition has_containers (d : jobj) (c : nat) : Prop := exists l, at_ ["spec"; "containers"] d = JList l /\ length l = c.
Definition named_pod (d : jobj) : Prop := exists ns n, located d ns n.
Definition counted_pod (d : jobj) : Prop := named_pod d /\ exists c, has_containers d c.
