(** Specification vocabulary for the error report. *)
From Verif Require Import StatusModel.

(** The last [n] elements. *)
Definition lastn {A} (n : nat) (l : list A) : list A := drop (length l - n) l.
(** The message that an event reports. *)
Definition is_push (ev : sevent) : option string := match ev with EPush e | ECritical e => Some e | EPop => None end.
