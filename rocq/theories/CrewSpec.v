(** Specification vocabulary for workers. *)
From Verif Require Import JsonModel ObjModel ZSetModel OpsModel ExecModel PipelineModel ReconcilerModel PipelineSpec.

(** The events in the order in which the workers evaluate them. *)
Fixpoint evaluated (l : list wstep) : list delta :=
  match l with
  | [] => []
  | WEval _ d :: l => d :: evaluated l
  | WWrite _ :: l => evaluated l
  end.

(** The objects that some operations are about. *)
Definition touched (ds : list delta) : list oname := map (fun d => obj_id (d_obj d)) ds.
(** No two workers have writes to the same object under way. *)
Definition apart (pending : list (list delta)) : Prop :=
  forall i j a b x, i <> j -> pending !! i = Some a -> pending !! j = Some b -> x ∈ touched a -> x ∉ touched b.
(** Nothing is left to write. *)
Definition idle (pending : list (list delta)) : Prop := Forall (eq []) pending.

(** The requests whose attempt succeeded. *)
Fixpoint succeeded (l : list (delta * bool)) : list delta :=
  match l with
  | [] => []
  | (d, true) :: l => d :: succeeded l
  | (_, false) :: l => succeeded l
  end.
