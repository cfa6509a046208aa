(** Specification vocabulary for crashes and restarts. *)
From Verif Require Import LifeModel ZSetSpec OpsSpec GatherSpec ExecSpec JsonSpec CleanSpec PipelineSpec GroupSpec ValueSpec ViewSpec WriterSpec NetSpec.

Section spec.
Context {FF : FloatFmt}.
(** The cluster as it was when the process was started last. *)
Definition last_start (c : cluster) (l : list lact) : cluster := foldl (fun c a => match a with LCrash c' => c' | _ => c end) c l.
(** Any cluster, with caches that are up to date. *)
Definition cluster_fit (hash : string -> string) (c : cluster) : Prop := cluster_ok hash c /\ forall j, is_view_kind j.1 = false -> up_to_date c j.
Definition lact_fit (hash : string -> string) (a : lact) : Prop := match a with LDo a => act_fit a | LCrash c => cluster_fit hash c end.
(** No two controllers have the same target. *)
Definition apart_all (cs : list config) : Prop := forall j k c c', cs !! j = Some c -> cs !! k = Some c' -> c_target c = c_target c' -> j = k.
(** Whatever the controllers do next, they come to rest, and until then they can do something. *)
Inductive calms (step : site clean -> lact -> option (site clean)) (w : site clean) : Prop :=
  Calms : (quiet (at_net clean w) \/ exists a w', own_step a /\ step w (LDo a) = Some w') ->
    (forall a w', own_step a -> step w (LDo a) = Some w' -> calms step w') -> calms step w.
End spec.
