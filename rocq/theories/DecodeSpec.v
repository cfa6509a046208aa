(** What a declared pipeline may look like. *)
From Verif Require Import JsonModel PipeJsonModel.
#[local] Open Scope string_scope.

(** The operators and their old names. *)
Definition operators : list (string * stage_kind) :=
  [("@join", KJoin); ("@select", KSelect); ("@project", KProject); ("@unwind", KUnwind); ("@demux", KUnwind); ("@gather", KGather); ("@mux", KGather)].
(** A list of stages, nothing, or a single stage. *)
Definition parts (j : json) : list json := match j with JList l => l | JNull => [] | _ => [j] end.
