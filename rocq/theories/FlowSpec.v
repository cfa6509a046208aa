(** What users expect of the status of an Operator object, without the model's
    channels, reporters and limiters. *)
From Verif Require Export FlowModel StatusSpec.

(** The errors pushed by the workers of controller [i] during a run, in order. *)
Definition errors_of (i : nat) (r : list action) : list string :=
  omap (fun a => match a with APush j e => if decide (j = i) then Some e else None | _ => None end) r.

(** The status of a controller with the given construction error and runtime
    errors: the last ten errors, Ready if there was none, not Ready if it could
    not be constructed. *)
Definition expected (c : string * option string) (es : list string) : cstatus :=
  let all := match c.2 with Some e => e :: es | None => es end in
  CStatus c.1
    (match c.2, es with None, [] => CTrue | Some _, _ => CFalse | None, _ => CUnknown end)
    (map trim (lastn 10 all)).
Definition expected_all (l : list (string * option string)) (r : list action) : list cstatus :=
  imap (fun i c => expected c (errors_of i r)) l.

(** The number of controllers that cannot be constructed. *)
Definition broken (l : list (string * option string)) : nat :=
  length (omap (fun c : string * option string => c.2) l).

(** Nothing is under way: no error is waiting anywhere, and no update of the
    status of this operator is in progress. *)
Definition at_rest (s : flow) : Prop :=
  f_rec s = RDone /\ f_fwd s = FWait /\ f_chan s = 0%nat /\
  (f_cons s = CIdle \/ f_cons s = COther) /\
  Forall (fun c => c_waiting c = 0%nat /\ c_sending c = false) (f_ctrls s).

(** The API server answers: no update is given up. *)
Definition no_failure (r : list action) : Prop :=
  Forall (fun a => match a with AUpdateFail | AReportFail => False | _ => True end) r.

(** Workers meet no error until the reconciler has written the first status. *)
Definition orderly (s : flow) (r : list action) : Prop :=
  forall r1 i e r2 s1, r = r1 ++ APush i e :: r2 -> frun s r1 = Some s1 -> f_rec s1 = RDone.

(** The errors of a controller come slowly: each is one of the first three, or
    two seconds have passed since the last one that was passed on. *)
Definition enters (i : nat) (r : list action) : nat :=
  length (omap (fun a => match a with AEnter j _ => if decide (j = i) then Some tt else None | _ => None end) r).
Definition last_send (i : nat) (r : list action) : option Z :=
  last (omap (fun a => match a with ASend j t => if decide (j = i) then Some t else None | _ => None end) r).
Definition unhurried (r : list action) : Prop :=
  forall r1 i t r2, r = r1 ++ AEnter i t :: r2 ->
    (enters i r1 < 3)%nat \/ exists t', last_send i r1 = Some t' /\ (t' + 2000000000 <= t)%Z.

(** The steps the program makes by itself: no new error, no other operator, no
    other client. *)
Definition internal (a : action) : Prop :=
  match a with APush _ _ | ABusy | AForeign => False | _ => True end.

(** An update of the status has met a conflict in its last attempt. *)
Definition exhausted (s : flow) : Prop :=
  exists st v, (f_cons s = CUpdate (UTry st v 0) \/ f_rec s = RUpdate (UTry st v 0)) /\ v <> o_version (f_obj s).
