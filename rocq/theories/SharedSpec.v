(** Specification vocabulary for operators that share the view cache. *)
From Verif Require Import SharedModel ViewSpec.

Definition sact_ok (a : sact) : Prop := match a with SDo o => op_ok o | _ => True end.
(** The writes of all operators, in their order. *)
Definition swrites (l : list sact) : list vop := omap (fun a => match a with SDo o => Some o | _ => None end) l.
(** The same writes and subscriptions on a view cache that has no operators. *)
Definition direct (a : sact) : option vact :=
  match a with
  | SDo o => Some (Do o)
  | SListen _ x | SWatch x => Some (Listen x)
  | _ => None
  end.
Definition dacts (l : list sact) : list vact := omap direct l.
(** Nobody ended the subscription [i] of operator [p] to kind [x], nor operator [p]. *)
Definition keeps_op (p : nat) (x : gvk) (i : nat) (l : list sact) : Prop :=
  ~ In (SStop p) l /\ ~ In (SRemove p x) l /\ ~ In (SLeave i) l.
(** The same for a subscription at the storage. *)
Definition keeps_own (x : gvk) (i : nat) (l : list sact) : Prop := ~ In (SRemoveOwn x) l /\ ~ In (SLeave i) l.

(** The steps of the walk itself, without those of the operators. *)
Definition is_next (a : walk_act) : bool := match a with WNext => true | _ => false end.
