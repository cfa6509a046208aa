(** Model of pkg/controller/status_reporter.go and of the condition in
    pkg/controller/declarative.go GetStatus.

    An error is its message.  The rate-limited trigger of status updates is in
    FlowModel.v.  Not modelled: logging. *)
From Verif Require Export JsonModel.

(** s[0:n] and s[n:] on bytes. *)
Fixpoint stake (n : nat) (s : string) : string :=
  match n, s with S n, String c s => String c (stake n s) | _, _ => EmptyString end.
Fixpoint sdrop (n : nat) (s : string) : string :=
  match n, s with S n, String _ s => sdrop n s | _, _ => s end.

(** status_reporter.go:12-20 *)
Definition stack_size : nat := 10.
Definition trim_len : nat := 120.

(** status_reporter.go:30-36 errorReporter *)
Record reporter := Reporter { errs : list string; critical : bool }.
(** status_reporter.go:39-41 NewErrorReporter *)
Definition reporter_new : reporter := Reporter [] false.
(** status_reporter.go:79-98 push: a full stack is shifted by one. *)
Definition push_stack (l : list string) (e : string) : list string :=
  if decide (length l = stack_size) then drop 1 l ++ [e] else l ++ [e].
(** status_reporter.go:43-57 Push, PushError, PushErrorf *)
Definition push (s : reporter) (e : string) : reporter := Reporter (push_stack (errs s) e) (critical s).
(** status_reporter.go:59-76 PushCritical and its variants *)
Definition push_critical (s : reporter) (e : string) : reporter := Reporter (push_stack (errs s) e) true.
(** status_reporter.go:100-106 Pop *)
Definition pop (s : reporter) : reporter := Reporter (take (length (errs s) - 1) (errs s)) (critical s).
(** status_reporter.go:108-114 Top *)
Definition top (s : reporter) : option string := last (errs s).
(** status_reporter.go:144-151 trim *)
Definition trim (s : string) : string :=
  if (String.length s <=? 2 * trim_len + 5)%nat then s
  else stake (trim_len - 1) s +:+ "[...]" +:+ sdrop (String.length s - trim_len) s.
(** status_reporter.go:131-137 Report *)
Definition report (s : reporter) : list string := map trim (errs s).

Inductive condition := CTrue | CFalse | CUnknown.
(** declarative.go:170-212 GetStatus: the status of the Ready condition. *)
Definition ready (s : reporter) : condition :=
  match errs s with
  | [] => CTrue
  | _ => if critical s then CFalse else CUnknown
  end.

(** *** Histories *)
Inductive sevent := EPush (e : string) | ECritical (e : string) | EPop.
Definition sstep (s : reporter) (ev : sevent) : reporter :=
  match ev with EPush e => push s e | ECritical e => push_critical s e | EPop => pop s end.

(** *** Concurrent pushes

    Each source of a controller has its own worker (declarative.go:85-134), and
    nothing locks the reporter.  A push first tests the length of the stack and
    then reads the stack again and stores the new one; here both are atomic
    steps.  A worker is idle or has tested. *)
Inductive worker := Idle | Tested (e : string) (full : bool).
Record racy := Racy { r_errs : list string; r_workers : list worker }.
(** One step of worker [i]; an idle worker begins to push [e]. *)
Definition rstep (st : racy) (i : nat) (e : string) : racy :=
  match r_workers st !! i with
  | None => st
  | Some Idle => Racy (r_errs st) (<[i := Tested e (bool_decide (length (r_errs st) = stack_size))]> (r_workers st))
  | Some (Tested e true) => Racy (drop 1 (r_errs st) ++ [e]) (<[i := Idle]> (r_workers st))
  | Some (Tested e false) => Racy (r_errs st ++ [e]) (<[i := Idle]> (r_workers st))
  end.
Definition rrun (st : racy) (l : list (nat * string)) : racy := foldl (fun st ie => rstep st ie.1 ie.2) st l.
