(** Model of how the errors of controllers reach the status of the Operator
    object: pkg/controller/status_reporter.go push,
    pkg/operator/operator.go AddSpec and GetStatus, and
    pkg/kubernetes/controllers/operator.go AddOperatorFromSpec, startOp, Start
    and updateStatus.

    One Operator object and the operator made from it.  Every goroutine is a
    part of the state, and the steps of all of them interleave freely.  What
    other operators do is seen only as the status updater being busy with them,
    and as foreign writes to the object.  Time is in nanoseconds and comes with
    the steps that read the clock.

    Simplified: a push to the error stack is one step (the race between two of
    them is in StatusModel.v); a status has the name, the Ready condition and
    the errors of every controller, without the generation and the times; an
    operator is not replaced or removed (ControllersModel.v does that). *)
From Verif Require Export StatusModel.

(** *** The rate limiter *)

(** golang.org/x/time/rate Sometimes, the state; its mutex is [c_sending]. *)
Record limiter := Limiter { l_count : nat; l_last : Z }.
Definition limiter_new : limiter := Limiter 0 0.
(** status_reporter.go:22-26 getDefaultRateLimiter *)
Definition l_first : nat := 3.
Definition l_interval : Z := 2000000000.
(** Sometimes.Do: whether the function is called at time [t]. *)
Definition allows (l : limiter) (t : Z) : bool :=
  (l_count l =? 0)%nat || (l_count l <? l_first)%nat || (l_interval <=? t - l_last l)%Z.
(** Sometimes.Do, when the function is not called, and when it has returned at time [t]. *)
Definition skipped (l : limiter) : limiter := Limiter (S (l_count l)) (l_last l).
Definition called (l : limiter) (t : Z) : limiter := Limiter (S (l_count l)) t.

(** *** Controllers *)

(** A controller with its reporter.  [c_waiting] counts the pushes that have
    changed the stack and have not entered Do yet, [c_sending] says that one of
    them holds the mutex of the limiter and sends. *)
Record ctrl := Ctrl
  { c_name : string; c_reporter : reporter; c_limiter : limiter; c_waiting : nat; c_sending : bool }.
Definition ctrl_new (name : string) : ctrl := Ctrl name reporter_new limiter_new 0 false.
(** status_reporter.go:79-98 push, up to the deferred call. *)
Definition pushed (c : ctrl) (r : reporter) : ctrl :=
  Ctrl (c_name c) r (c_limiter c) (S (c_waiting c)) (c_sending c).
(** status_reporter.go:83-87: the deferred call takes the mutex of the limiter. *)
Definition enter (c : ctrl) (t : Z) : option ctrl :=
  match c_waiting c, c_sending c with
  | S n, false =>
      Some (if allows (c_limiter c) t then Ctrl (c_name c) (c_reporter c) (c_limiter c) n true
            else Ctrl (c_name c) (c_reporter c) (skipped (c_limiter c)) n false)
  | _, _ => None
  end.
(** status_reporter.go:84-86: the send has gone through. *)
Definition sent (c : ctrl) (t : Z) : option ctrl :=
  if c_sending c then Some (Ctrl (c_name c) (c_reporter c) (called (c_limiter c) t) (c_waiting c) false)
  else None.
(** The push has returned. *)
Definition quiet (c : ctrl) : bool := (c_waiting c =? 0)%nat && negb (c_sending c).

(** declarative.go:175-212 GetStatus *)
Record cstatus := CStatus { s_name : string; s_ready : condition; s_errors : list string }.
Definition cstatus_of (c : ctrl) : cstatus :=
  CStatus (c_name c) (ready (c_reporter c)) (report (c_reporter c)).
(** pkg/operator/operator.go:223-231 GetStatus *)
Definition statuses (cs : list ctrl) : list cstatus := map cstatus_of cs.

(** *** The status of the Operator object *)

(** The object: its status and its resource version. *)
Record object := Object { o_status : list cstatus; o_version : nat }.

(** controllers/operator.go:371-408 updateStatus.  [UStart] before the first Get,
    [UHave] with the snapshot and the attempts left, [UTry] with the version
    fetched for this attempt. *)
Inductive updater :=
| UStart
| UHave (st : list cstatus) (n : nat)
| UTry (st : list cstatus) (v : nat) (n : nat).
(** k8s.io/client-go/util/retry DefaultRetry: five attempts. *)
Definition u_attempts : nat := 5.
(** One successful client call.  Reads go to a cache that may be [lag] versions
    behind.  A conflict on the last attempt is not a step: the update fails. *)
Definition ustep (cs : list ctrl) (o : object) (u : updater) (lag : nat) : option (object * option updater) :=
  match u with
  | UStart => Some (o, Some (UHave (statuses cs) u_attempts))
  | UHave st (S n) => Some (o, Some (UTry st (o_version o - lag)%nat n))
  | UHave _ O => None
  | UTry st v n =>
      if (v =? o_version o)%nat then Some (Object st (S v), None)
      else match n with O => None | S _ => Some (o, Some (UHave st n)) end
  end.

(** *** All together *)

(** controllers/operator.go:263-278: the forwarder of the operator is not
    started, waits for an error, or holds one for the status updater. *)
Inductive forwarder := FOff | FWait | FHold.
(** controllers/operator.go:337-363: the status updater is idle, busy with other
    operators, or updates the status of this one. *)
Inductive consumer := CIdle | COther | CUpdate (u : updater).
(** controllers/operator.go:198-216, 281-306: the reconciler adds the remaining
    controllers of the specification, each with the error its construction ends
    with, if any; waits for the push of such an error to return; updates the
    status; or has returned. *)
Inductive reconcile :=
| RAdd (l : list (string * option string))
| RPush (l : list (string * option string))
| RUpdate (u : updater)
| RDone.

(** [f_chan] counts the errors in the channel of the operator: of an error only
    the operator's name is used. *)
Record flow := Flow
  { f_ctrls : list ctrl; f_chan : nat; f_fwd : forwarder; f_cons : consumer; f_rec : reconcile; f_obj : object }.
(** controllers/operator.go:34 StatusChannelBufferSize *)
Definition chan_size : nat := 64.
(** The Operator object has just been seen by the reconciler. *)
Definition flow_new (l : list (string * option string)) (o : object) : flow := Flow [] 0 FOff CIdle (RAdd l) o.

Inductive action :=
| AAdd                            (* the reconciler constructs the next controller *)
| AReturn                         (* the push made by the constructor has returned *)
| AStart                          (* the operator is started *)
| APush (i : nat) (e : string)    (* a worker of controller [i] pushes an error *)
| AEnter (i : nat) (t : Z)        (* a push enters the limiter *)
| ASend (i : nat) (t : Z)         (* the error is in the channel *)
| ATake                           (* the forwarder takes an error *)
| AHand                           (* and hands it to the status updater *)
| ABusy | AFree                   (* the status updater begins, ends with others *)
| AUpdate (lag : nat)             (* the status updater makes a call *)
| AReport (lag : nat)             (* the reconciler makes a call of updateStatus *)
| AUpdateFail | AReportFail       (* the call fails for good *)
| AForeign.                       (* someone else writes the object *)

Definition set_ctrls (s : flow) (cs : list ctrl) : flow :=
  Flow cs (f_chan s) (f_fwd s) (f_cons s) (f_rec s) (f_obj s).

(** One step; [None] if it cannot happen now. *)
Definition fstep (s : flow) (a : action) : option flow :=
  match a with
  (* pkg/operator/operator.go:109-124 AddSpec, 170-182 AddDeclarativeController *)
  | AAdd =>
      match f_rec s with
      | RAdd ((name, None) :: l) =>
          Some (Flow (f_ctrls s ++ [ctrl_new name]) (f_chan s) (f_fwd s) (f_cons s) (RAdd l) (f_obj s))
      | RAdd ((name, Some e) :: l) =>
          Some (Flow (f_ctrls s ++ [pushed (ctrl_new name) (push_critical reporter_new e)])
                  (f_chan s) (f_fwd s) (f_cons s) (RPush l) (f_obj s))
      | _ => None
      end
  | AReturn =>
      match f_rec s, last (f_ctrls s) with
      | RPush l, Some c =>
          if quiet c then Some (Flow (f_ctrls s) (f_chan s) (f_fwd s) (f_cons s) (RAdd l) (f_obj s)) else None
      | _, _ => None
      end
  (* controllers/operator.go:212-213, 247-278 *)
  | AStart =>
      match f_rec s with
      | RAdd [] => Some (Flow (f_ctrls s) (f_chan s) FWait (f_cons s) (RUpdate UStart) (f_obj s))
      | _ => None
      end
  (* pkg/controller/reconcilers.go:61, 74, 110, 125: workers run in a started operator *)
  | APush i e =>
      match f_fwd s, f_ctrls s !! i with
      | FWait, Some c | FHold, Some c =>
          Some (set_ctrls s (<[i := pushed c (push (c_reporter c) e)]> (f_ctrls s)))
      | _, _ => None
      end
  | AEnter i t =>
      match f_ctrls s !! i with
      | Some c => c' ← enter c t; Some (set_ctrls s (<[i := c']> (f_ctrls s)))
      | None => None
      end
  | ASend i t =>
      match f_ctrls s !! i with
      | Some c =>
          if (f_chan s <? chan_size)%nat then
            c' ← sent c t;
            Some (Flow (<[i := c']> (f_ctrls s)) (S (f_chan s)) (f_fwd s) (f_cons s) (f_rec s) (f_obj s))
          else None
      | None => None
      end
  | ATake =>
      match f_fwd s, f_chan s with
      | FWait, S n => Some (Flow (f_ctrls s) n FHold (f_cons s) (f_rec s) (f_obj s))
      | _, _ => None
      end
  | AHand =>
      match f_fwd s, f_cons s with
      | FHold, CIdle => Some (Flow (f_ctrls s) (f_chan s) FWait (CUpdate UStart) (f_rec s) (f_obj s))
      | _, _ => None
      end
  | ABusy =>
      match f_cons s with
      | CIdle => Some (Flow (f_ctrls s) (f_chan s) (f_fwd s) COther (f_rec s) (f_obj s))
      | _ => None
      end
  | AFree =>
      match f_cons s with
      | COther => Some (Flow (f_ctrls s) (f_chan s) (f_fwd s) CIdle (f_rec s) (f_obj s))
      | _ => None
      end
  | AUpdate lag =>
      match f_cons s with
      | CUpdate u =>
          '(o, u') ← ustep (f_ctrls s) (f_obj s) u lag;
          Some (Flow (f_ctrls s) (f_chan s) (f_fwd s) (match u' with Some u' => CUpdate u' | None => CIdle end)
                  (f_rec s) o)
      | _ => None
      end
  | AReport lag =>
      match f_rec s with
      | RUpdate u =>
          '(o, u') ← ustep (f_ctrls s) (f_obj s) u lag;
          Some (Flow (f_ctrls s) (f_chan s) (f_fwd s) (f_cons s)
                  (match u' with Some u' => RUpdate u' | None => RDone end) o)
      | _ => None
      end
  | AUpdateFail =>
      match f_cons s with
      | CUpdate _ => Some (Flow (f_ctrls s) (f_chan s) (f_fwd s) CIdle (f_rec s) (f_obj s))
      | _ => None
      end
  | AReportFail =>
      match f_rec s with
      | RUpdate _ => Some (Flow (f_ctrls s) (f_chan s) (f_fwd s) (f_cons s) RDone (f_obj s))
      | _ => None
      end
  | AForeign =>
      Some (Flow (f_ctrls s) (f_chan s) (f_fwd s) (f_cons s) (f_rec s)
              (Object (o_status (f_obj s)) (S (o_version (f_obj s)))))
  end.

Fixpoint frun (s : flow) (l : list action) : option flow :=
  match l with
  | [] => Some s
  | a :: l => s' ← fstep s a; frun s' l
  end.
