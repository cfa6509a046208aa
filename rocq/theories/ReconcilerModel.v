(** Model of pkg/controller/reconcilers.go: a request goes through the pipeline
    and the emitted operations are written to the target one by one.

    Simplifications: the target is any type [W] with a write function that may
    fail (pkg/reconciler/target.go Write is modelled elsewhere); a failed request
    is returned to the work queue, which runs it again with the same object
    (controller-runtime; recalled).  Secrets are decoded before, see
    object.DecodeSecretData. *)
From Verif Require Export PipelineModel.

Section reconciler.
Context {FF : FloatFmt}.
Variable P : jobj -> bool.
#[local] Hint Extern 0 Docs => exact (json_docs_on P) : typeclass_instances.
Variable sortv : list json -> list json.
Context {W : Type}.

(** reconcilers.go:66-79: stop at the first error. *)
Fixpoint write_all (wr : W -> delta -> option W) (w : W) (ds : list delta) : W * bool :=
  match ds with
  | [] => (w, true)
  | d :: ds => match wr w d with None => (w, false) | Some w1 => write_all wr w1 ds end
  end.
(** reconcilers.go:35-82 IncrementalReconciler.Reconcile.  The flag says whether
    it returned without an error. *)
Definition inc_reconcile (wr : W -> delta -> option W) (o : order) (st : pipe P * W) (d : delta) : pipe P * W * bool :=
  let '(p, w) := st in
  match d_type d with
  | Added | Updated | Replaced | Deleted =>
      let '(p1, r) := evaluate P sortv o p d in
      match r with
      | None => ((p1, w), false)
      | Some ds => let '(w1, ok) := write_all wr w ds in ((p1, w1), ok)
      end
  | _ => (st, true)
  end.
(** reconcilers.go:104-140 StateOfTheWorldReconciler.Reconcile. *)
Definition sow_reconcile (wr : W -> delta -> option W) (o : order) (st : pipe P * W) : pipe P * W * bool :=
  let '(p, w) := st in
  let '(p1, r) := sync P sortv o p in
  match r with
  | None => ((p1, w), false)
  | Some ds => let '(w1, ok) := write_all wr w ds in ((p1, w1), ok)
  end.

(** A sequence of requests, each with the behaviour of the target. *)
Fixpoint inc_run (o : order) (n : nat) (st : pipe P * W) (l : list (delta * (W -> delta -> option W))) : pipe P * W * list bool :=
  match l with
  | [] => (st, [])
  | (d, wr) :: l =>
      let '(st1, ok) := inc_reconcile wr (osub o n) st d in
      let '(st2, oks) := inc_run o (S n) st1 l in
      (st2, ok :: oks)
  end.

(** The work queue of a source: the first request is processed, with the given
    behaviour of the target; if it fails it is added again behind the requests
    that wait (AddRateLimited of controller-runtime, recalled; a request carries
    its own copy of the object, so that requests are never merged). *)
Definition queue_step (o : order) (st : pipe P * W * list delta) (wr : W -> delta -> option W) : pipe P * W * list delta :=
  let '(pw, q) := st in
  match q with
  | [] => st
  | d :: q => let '(pw1, ok) := inc_reconcile wr o pw d in (pw1, if ok then q else q ++ [d])
  end.
Fixpoint queue_run (o : order) (n : nat) (st : pipe P * W * list delta) (wrs : list (W -> delta -> option W)) : pipe P * W * list delta :=
  match wrs with [] => st | wr :: wrs => queue_run o (S n) (queue_step (osub o n) st wr) wrs end.

(** Concurrency: declarative.go:85-134 gives each source its own controller, and
    with it a worker.  Evaluate holds a lock (pipeline.go:192), so it is one
    step; the emitted operations are written afterwards, one by one, without it
    (reconcilers.go:66-79).  A worker evaluates its next event only when it has
    written everything. *)
Record crew := Crew { w_pipe : pipe P; w_target : W; w_pending : list (list delta) }.
Inductive wstep := WEval (i : nat) (d : delta) | WWrite (i : nat).
(** [None]: the step is not possible now. *)
Definition crew_step (wr : W -> delta -> W) (o : order) (c : crew) (s : wstep) : option crew :=
  match s with
  | WEval i d =>
      match w_pending c !! i with
      | Some [] =>
          let '(p1, r) := evaluate P sortv o (w_pipe c) d in
          Some (Crew p1 (w_target c) (<[i := default [] r]> (w_pending c)))
      | _ => None
      end
  | WWrite i =>
      match w_pending c !! i with
      | Some (d :: ds) => Some (Crew (w_pipe c) (wr (w_target c) d) (<[i := ds]> (w_pending c)))
      | _ => None
      end
  end.
Fixpoint crew_run (wr : W -> delta -> W) (o : order) (n : nat) (c : crew) (l : list wstep) : option crew :=
  match l with
  | [] => Some c
  | s :: l => c1 ← crew_step wr (osub o n) c s; crew_run wr o (match s with WEval _ _ => S n | _ => n end) c1 l
  end.
End reconciler.
