(** Model of the sources that do not watch what others write
    (pkg/reconciler/source.go): the one-shot source and the periodic source, and the
    work queue between a source and its reconciler (client-go, not part of the
    repository; recalled).

    The one-shot source is modelled for view kinds: the client then is the view client
    and the informers are those of [SharedModel].  Not modelled: its use with native
    kinds, where it makes an object in the Kubernetes API; logging. *)
From Verif Require Export SharedModel.

(** *** source.go *)

Inductive stype := TWatcher | TOneShot | TPeriodic.
(** source.go:45-62 NewSource, controller_types.go:63-71 *)
Definition source_type (s : string) : stype :=
  if decide (s = "OneShot"%string) then TOneShot else if decide (s = "Periodic"%string) then TPeriodic else TWatcher.
(** declarative.go:85-101: the kinds that the pipeline is made for. *)
Definition base_views (l : list (stype * gvk)) : list gvk :=
  omap (fun s : stype * gvk => match s.1 with TPeriodic => None | _ => Some s.2 end) l.

(** source.go:25-26, 31-32 *)
Definition trigger_name : string := "one-shot-trigger".
Definition triggered_label : string := "dcontroller.io/last-triggered".
(** source.go:174-184: the object that GetSource of a one-shot source makes; [now] is the
    time as a string.  SetLabels of Unstructured sets the field (apimachinery). *)
Definition trigger (x : gvk) (now : string) : jobj :=
  nested_set' (set_name (set_gvk [] x) trigger_name) ["metadata"; "labels"] (JMap [(triggered_label, JStr now)]).
(** source.go:167-191 GetSource: the object is created; the subscription without any
    predicate (189-190) follows when the controller starts. *)
Definition prepare_oneshot (x : gvk) (now : string) : sact := SDo (VCreate (trigger x now)).

(** declarative.go:77-81, 122-126: GetSource of each source of a controller, given by type
    and kind; the other types write nothing. *)
Definition prepare_source (now : string) (s : string * gvk) : list sact :=
  match source_type s.1 with TOneShot => [prepare_oneshot s.2 now] | _ => [] end.
Definition prepare_sources (now : string) (l : list (string * gvk)) : list sact := l ≫= prepare_source now.

(** source.go:215, in nanoseconds *)
Definition default_period : Z := 300 * 10 ^ 9.
(** source.go:206-229 NewPeriodicSource: the period.  [params] is the parsed JSON of the
    parameters, [None] if there are none or they cannot be parsed; [parse] is
    time.ParseDuration. *)
Definition period_of (parse : string -> option Z) (params : option json) : Z :=
  match params with
  | Some (JMap m) => match mget m "period" with Some (JStr s) => default default_period (parse s) | _ => default_period end
  | _ => default_period
  end.
(** source.go:256-260 Start *)
Definition period_starts (d : Z) : bool := (0 <? d)%Z.

(** *** The work queue

    client-go util/workqueue (recalled): requests are compared with Go's [==].
    [q_wait] is the queue, [q_dirty] the requests to be processed and [q_busy] those
    that a worker has. *)
Section queue.
Context {A : Type} `{EqDecision A}.
Record queue := Queue { q_wait : list A; q_dirty : list A; q_busy : list A }.
Definition queue0 : queue := Queue [] [] [].
Definition without (a : A) (l : list A) : list A := List.filter (fun b => bool_decide (b <> a)) l.
Definition q_add (q : queue) (a : A) : queue :=
  if decide (a ∈ q_dirty q) then q
  else Queue (if decide (a ∈ q_busy q) then q_wait q else q_wait q ++ [a]) (a :: q_dirty q) (q_busy q).
Definition q_get (q : queue) : option (A * queue) :=
  match q_wait q with
  | [] => None
  | a :: l => Some (a, Queue l (without a (q_dirty q)) (a :: q_busy q))
  end.
Definition q_done (q : queue) (a : A) : queue :=
  Queue (if decide (a ∈ q_dirty q) then q_wait q ++ [a] else q_wait q) (q_dirty q) (without a (q_busy q)).

(** What the producers and the workers do: [QGet a]: a worker takes the first request,
    which is [a].  [None]: the step is not possible now. *)
Inductive qact := QAdd (a : A) | QGet (a : A) | QDone (a : A).
Definition q_step (q : queue) (s : qact) : option queue :=
  match s with
  | QAdd a => Some (q_add q a)
  | QGet a => match q_get q with Some (b, q') => if decide (a = b) then Some q' else None | None => None end
  | QDone a => if decide (a ∈ q_busy q) then Some (q_done q a) else None
  end.
Fixpoint q_run (q : queue) (l : list qact) : option queue :=
  match l with [] => Some q | s :: l => q1 ← q_step q s; q_run q1 l end.
End queue.
Arguments queue : clear implicits.
Arguments qact : clear implicits.

(** *** The periodic source

    source.go:256-292 Start, with the reconciler behind the queue.  All requests of a
    periodic source are equal: the object is nil.  [t_tick]: the channel of the ticker
    holds a tick (there is room for one, later ones are dropped; recalled); [t_on]: the
    goroutine runs; [t_retry]: failed requests that wait to be added again
    (AddRateLimited of controller-runtime, recalled). *)
Record timer := Timer { t_tick : bool; t_on : bool; t_retry : nat; t_queue : queue unit }.
Definition timer0 : timer := Timer false true 0 queue0.
Inductive tact :=
  | TTick              (* the period is over *)
  | TEmit              (* the goroutine takes the tick and adds the request *)
  | TStop              (* the goroutine sees the end of the context *)
  | TStart             (* a worker takes the request: a reconciliation begins *)
  | TEnd (ok : bool)   (* it ends, without or with an error *)
  | TRetry.            (* the delay of a failed request is over *)
Definition t_step (t : timer) (a : tact) : option timer :=
  let '(Timer tick on retry q) := t in
  match a with
  | TTick => Some (Timer true on retry q)
  | TEmit => if tick && on then Some (Timer false on retry (q_add q tt)) else None
  | TStop => Some (Timer tick false retry q)
  | TStart => q1 ← q_step q (QGet tt); Some (Timer tick on retry q1)
  | TEnd ok => q1 ← q_step q (QDone tt); Some (Timer tick on (if ok then retry else S retry) q1)
  | TRetry => match retry with 0%nat => None | S n => Some (Timer tick on n (q_add q tt)) end
  end.
Fixpoint t_run (t : timer) (l : list tact) : option timer :=
  match l with [] => Some t | a :: l => t1 ← t_step t a; t_run t1 l end.
