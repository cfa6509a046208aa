(** Specification vocabulary for one-shot and periodic sources and the work queue. *)
From Verif Require Import SourceModel SharedSpec ViewSpec.

(** The kind that a write is about. *)
Definition op_gvk (o : vop) : gvk :=
  get_gvk match o with
  | VCreate m | VUpdate m | VPatch m _ | VDelete m | VDeleteAll m _ | VSubUpdate _ m | VSubCreate _ m _ => m
  end.
(** Nobody writes objects of the kind. *)
Definition unwritten (x : gvk) (l : list sact) : Prop := Forall (fun o => op_gvk o <> x) (swrites l).
(** Nobody but one-shot sources of the same kind does. *)
Definition only_triggers (x : gvk) (l : list sact) : Prop :=
  Forall (fun o => op_gvk o <> x \/ exists t, o = VCreate (trigger x t)) (swrites l).

(** Requests taken by workers, in their order. *)
Definition taken {A} (l : list (qact A)) : list A := omap (fun s => match s with QGet a => Some a | _ => None end) l.
Definition added {A} (l : list (qact A)) : list A := omap (fun s => match s with QAdd a => Some a | _ => None end) l.
Definition times {A} `{EqDecision A} (a : A) (l : list A) : nat := length (List.filter (fun b => bool_decide (b = a)) l).
(** No request waits or is being processed. *)
Definition idle {A} (q : queue A) : Prop := q_wait q = [] /\ q_busy q = [].

(** Nothing is left to do for the source, its goroutine, the queue and the worker. *)
Definition at_rest (t : timer) : Prop := t_tick t = false /\ t_retry t = 0%nat /\ idle (t_queue t).
Definition count (p : tact -> bool) (l : list tact) : nat := length (List.filter p l).
Definition is_tick (a : tact) : bool := match a with TTick => true | _ => false end.
Definition is_start (a : tact) : bool := match a with TStart => true | _ => false end.
Definition is_failure (a : tact) : bool := match a with TEnd false => true | _ => false end.
