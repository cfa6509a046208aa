(** Model of the operators of README.md and doc/getting-started.md, which annotate
    pods: their pipelines as the JSON that the decoder reads.

    Simplification: the namespace of the source is not part of a pipeline. *)
From Verif Require Export JsonModel PipeJsonModel ExampleModel.
#[local] Open Scope string_scope.

(** README.md:77-85 *)
Definition count_json : json :=
  obj [("@project",
    obj [("metadata",
      obj [("annotations", obj [("dcontroller.io/container-num", obj [("@string", call "@len" [JStr "$.spec.containers"])])]);
           ("name", JStr "$.metadata.name"); ("namespace", JStr "$.metadata.namespace")])])].
(** doc/getting-started.md:39-45 *)
Definition managed_json : json :=
  obj [("@project",
    obj [("metadata",
      obj [("annotations", obj [("dcontroller.io/managed", JStr "true")]);
           ("name", JStr "$.metadata.name"); ("namespace", JStr "$.metadata.namespace")])])].
