(** Property C69: the status of an Operator object shows the errors of its
    controllers. *)
From Verif Require Import FlowSpec FlowProofs.

(** Whenever the program has come to rest, the status is the one expected at
    some moment after the last error passed on (or after the operator was
    started), for every interleaving of the workers, the forwarder, the status
    updater, the reconciler and other clients. *)
Theorem C69_shown_partial : forall l o r1 a r2 s1 s,
  frun (flow_new l o) (r1 ++ [a]) = Some s1 -> (a = AStart \/ exists i t, a = ASend i t) ->
  frun s1 r2 = Some s -> orderly (flow_new l o) (r1 ++ a :: r2) -> no_failure r2 -> at_rest s ->
  exists r3 r4, r2 = r3 ++ r4 /\ o_status (f_obj s) = expected_all l (r1 ++ a :: r3).
Proof. exact shown_since. Qed.
Print Assumptions C69_shown_partial.

(** And if the errors of every controller come slowly, the status is complete:
    every controller with all its errors, the oldest beyond ten left out. *)
Theorem C69_current_partial : forall l o r s, frun (flow_new l o) r = Some s ->
  orderly (flow_new l o) r -> no_failure r -> unhurried r -> at_rest s ->
  o_status (f_obj s) = expected_all l r.
Proof. exact shown_current. Qed.
Print Assumptions C69_current_partial.

(** What the operator reports of itself is exact at every moment. *)
Theorem C69_exact : forall l o r s, frun (flow_new l o) r = Some s -> f_fwd s <> FOff ->
  statuses (f_ctrls s) = expected_all l r.
Proof. exact snapshot. Qed.
Print Assumptions C69_exact.

(** With at most 64 controllers that cannot be constructed, the program always
    comes to rest unless the API server refuses the same update five times: some
    step is possible until then, and without new errors there are finitely many. *)
Theorem C69_rest : forall l o r s, frun (flow_new l o) r = Some s -> (broken l <= 64)%nat ->
  (at_rest s \/ exhausted s \/ exists a s', internal a /\ no_failure [a] /\ fstep s a = Some s') /\
  exists n, forall r' s', Forall internal r' -> frun s r' = Some s' -> (length r' <= n)%nat.
Proof.
  intros l o r s H B. split; [by apply (progress l o r)|]. exists (weight s). intros r' s' F H'.
  pose proof (bounded s r' s' H' F). lia.
Qed.
Print Assumptions C69_rest.

(** Refuted: with more, the operator is never started and the status is never
    written, whatever happens: the channel for the errors is full before anyone
    reads from it. *)
Theorem C69_stuck_refuted : forall l o r s, frun (flow_new l o) r = Some s -> (64 < broken l)%nat ->
  f_fwd s = FOff /\ o_status (f_obj s) = o_status o.
Proof. exact stuck. Qed.
Print Assumptions C69_stuck_refuted.

(** Refuted: "the status shows the last error".  After three errors, one that
    comes within two seconds of the last one passed on changes nothing, and the
    program is at rest again. *)
Theorem C69_limited_refuted : forall s i c e t, at_rest s -> f_ctrls s !! i = Some c ->
  (3 <= l_count (c_limiter c))%nat -> (t < l_last (c_limiter c) + 2000000000)%Z ->
  exists s', frun s [APush i e; AEnter i t] = Some s' /\ at_rest s' /\ f_obj s' = f_obj s.
Proof.
  intros s i c e t (R1 & R2 & R3 & R4 & R5) E L T.
  pose proof (proj1 (Forall_lookup _ _) R5 i c E) as [W Q].
  assert (allows (c_limiter c) t = false) as A.
  { unfold allows, l_first, l_interval. apply orb_false_iff. split; [apply orb_false_iff; split|].
    - apply Nat.eqb_neq. lia.
    - apply Nat.ltb_ge. lia.
    - apply Z.leb_gt. lia. }
  set (c1 := pushed c (push (c_reporter c) e)).
  assert (fstep s (APush i e) = Some (set_ctrls s (<[i := c1]> (f_ctrls s)))) as S1.
  { unfold fstep. by rewrite R2, E. }
  assert (exists c2, enter c1 t = Some c2 /\ c_waiting c2 = 0%nat /\ c_sending c2 = false) as (c2 & E2 & W2 & Q2).
  { unfold enter, c1, pushed. cbn. rewrite Q, A, W. by eexists. }
  assert (fstep (set_ctrls s (<[i := c1]> (f_ctrls s))) (AEnter i t) =
    Some (set_ctrls s (<[i := c2]> (<[i := c1]> (f_ctrls s))))) as S2.
  { unfold fstep. cbn [f_ctrls set_ctrls]. rewrite list_lookup_insert by (by eapply lookup_lt_Some). by rewrite E2. }
  eexists. split; [cbn [frun]; rewrite S1; cbn [mbind option_bind]; rewrite S2; reflexivity|]. split; [|done]. unfold at_rest. cbn [f_rec f_fwd f_chan f_cons f_ctrls set_ctrls].
  split_and!; [done..|]. rewrite list_insert_insert. apply Forall_insert; [done|]. done.
Qed.
Print Assumptions C69_limited_refuted.

(** Refuted: "a controller that works again becomes Ready again".  After its
    first error a controller never reports itself Ready. *)
Theorem C69_sticky_refuted : forall l o r s i e c, frun (flow_new l o) r = Some s -> In (APush i e) r ->
  f_ctrls s !! i = Some c -> s_ready (cstatus_of c) <> CTrue.
Proof.
  intros l o r s i e c H I E.
  destruct (histories_hold l o r s H) as (l1 & El & F & M & O).
  destruct (l1 !! i) as [d|] eqn:Ed.
  2:{ apply lookup_lt_Some in E. apply lookup_ge_None in Ed. apply Forall2_length in F. lia. }
  rewrite (made_expected _ _ _ (M i d c Ed E)).
  assert (errors_of i r <> []) as N.
  { intros Z. apply in_split in I as (ra & rb & ->). unfold errors_of in Z. rewrite omap_app in Z. cbn in Z.
    rewrite decide_True in Z by done. by apply app_nil in Z as [_ Z]. }
  unfold expected. cbn. destruct (d.2); [done|]. destruct (errors_of i r); done.
Qed.
Print Assumptions C69_sticky_refuted.

(** *** Examples *)

Definition ex_spec : list (string * option string) := [("good", None); ("bad", Some "invalid controller configuration: no source")]%string.
Definition ex_obj : object := Object [] 7.
(** The reconciler at work, and its first status. *)
Definition ex_up : list action := [AAdd; AAdd; AEnter 1 10; ASend 1 11; AReturn; AStart; AReport 0; ATake; AReport 0; AReport 0; AHand; AUpdate 0; AUpdate 1; AUpdate 0; AUpdate 0; AUpdate 0].
(** An error of controller 0 at time [t], up to the status. *)
Definition ex_err (e : string) (t : Z) : list action := [APush 0 e; AEnter 0 t; ASend 0 t; ATake; AHand; AUpdate 0; AUpdate 0; AUpdate 0].

Definition shown (l : list (string * option string)) (r : list action) : option (list cstatus) :=
  s ← frun (flow_new l ex_obj) r; Some (o_status (f_obj s)).
Example ex_C69_up : shown ex_spec ex_up =
  Some [CStatus "good" CTrue []; CStatus "bad" CFalse ["invalid controller configuration: no source"]]%string.
Proof. vm_compute. reflexivity. Qed.
Example ex_C69 : shown ex_spec (ex_up ++ ex_err "x" 20 ++ ex_err "y" 30) =
  Some [CStatus "good" CUnknown ["x"; "y"]; CStatus "bad" CFalse ["invalid controller configuration: no source"]]%string.
Proof. vm_compute. reflexivity. Qed.
(** The hypotheses of [C69_current_partial] and [C69_limited_refuted] are met. *)
Definition the (s : option flow) : flow := default (flow_new [] ex_obj) s.
Definition rest_b (s : flow) : bool :=
  match f_rec s, f_fwd s, f_chan s, f_cons s with
  | RDone, FWait, O, CIdle => forallb quiet (f_ctrls s)
  | _, _, _, _ => false
  end.
Lemma rest_b_ok s : rest_b s = true -> at_rest s.
Proof.
  unfold rest_b, at_rest. destruct (f_rec s), (f_fwd s), (f_chan s), (f_cons s); try done. intros H.
  split_and!; try done; [by left|]. apply Forall_forall. intros c Hc%elem_of_list_In.
  apply (proj1 (forallb_forall _ _) H) in Hc. unfold quiet in Hc. apply andb_true_iff in Hc as [H1%Nat.eqb_eq H2].
  by destruct (c_sending c).
Qed.
Lemma the_some x : is_Some x -> x = Some (the x).
Proof. by intros [s ->]. Qed.
Definition ex_run : list action := ex_up ++ ex_err "x" 20.
Lemma app_single {A} (l r1 r2 : list A) x : l = r1 ++ x :: r2 -> exists i, l !! i = Some x /\ r1 = take i l.
Proof. intros ->. exists (length r1). rewrite list_lookup_middle by done. by rewrite take_app. Qed.
Definition at_push (l : list (string * option string)) (r : list action) : bool :=
  forallb (fun k => match r !! k with
    | Some (APush _ _) => match frun (flow_new l ex_obj) (take k r) with
        | Some s => match f_rec s with RDone => true | _ => false end
        | None => true end
    | _ => true end) (seq 0 (length r)).
Lemma at_push_ok l r : at_push l r = true -> orderly (flow_new l ex_obj) r.
Proof.
  intros H r1 i e r2 s1 E H1. apply app_single in E as (k & E & ->).
  assert (In k (seq 0 (length r))) as I. { apply in_seq. apply lookup_lt_Some in E. lia. }
  pose proof (proj1 (forallb_forall _ _) H k I) as Hk. cbn beta in Hk. rewrite E, H1 in Hk. by destruct (f_rec s1).
Qed.
Definition few (r : list action) : bool :=
  forallb (fun k => match r !! k with Some (AEnter i _) => (enters i (take k r) <? 3)%nat | _ => true end) (seq 0 (length r)).
Lemma few_ok r : few r = true -> unhurried r.
Proof.
  intros H r1 i t r2 E. left. apply app_single in E as (k & E & ->).
  assert (In k (seq 0 (length r))) as I. { apply in_seq. apply lookup_lt_Some in E. lia. }
  pose proof (proj1 (forallb_forall _ _) H k I) as Hk. cbn beta in Hk. rewrite E in Hk. by apply Nat.ltb_lt.
Qed.
Example ex_C69_met : exists s, frun (flow_new ex_spec ex_obj) ex_run = Some s /\ at_rest s /\
  no_failure ex_run /\ unhurried ex_run /\ orderly (flow_new ex_spec ex_obj) ex_run /\ (broken ex_spec <= 64)%nat.
Proof.
  exists (the (frun (flow_new ex_spec ex_obj) ex_run)). split; [apply the_some; vm_compute; by eexists|].
  split; [apply rest_b_ok; vm_compute; reflexivity|].
  split; [unfold no_failure; by repeat constructor|].
  split; [apply few_ok; vm_compute; reflexivity|].
  split; [apply at_push_ok; vm_compute; reflexivity|]. vm_compute. lia.
Qed.

(** Refuted: the fourth error in a hurry is not shown. *)
Theorem C69_last_refuted : shown ex_spec (ex_up ++ ex_err "1" 20 ++ ex_err "2" 21 ++ ex_err "3" 22 ++ [APush 0 "4"; AEnter 0 23]) =
  Some [CStatus "good" CUnknown ["1"; "2"; "3"]; CStatus "bad" CFalse ["invalid controller configuration: no source"]]%string.
Proof. vm_compute. reflexivity. Qed.
Print Assumptions C69_last_refuted.
(** Two seconds later it is. *)
Example ex_C69_later : shown ex_spec (ex_up ++ ex_err "1" 20 ++ ex_err "2" 21 ++ ex_err "3" 22 ++ [APush 0 "4"; AEnter 0 23] ++ ex_err "5" 2000000022) =
  Some [CStatus "good" CUnknown ["1"; "2"; "3"; "4"; "5"]; CStatus "bad" CFalse ["invalid controller configuration: no source"]]%string.
Proof. vm_compute. reflexivity. Qed.

(** Refuted: "the status shows every error passed on" when a worker meets one
    before the reconciler has written the first status.  The reconciler has read
    the status before the error, and overwrites the newer one; nothing is left to
    be done and no call has failed. *)
Definition ex_stale : list action := [AAdd; AStart; AReport 0; APush 0 "x"; AEnter 0 20; ASend 0 20; ATake; AHand; AUpdate 0; AUpdate 0; AUpdate 0; AReport 0; AReport 0].
Theorem C69_stale_refuted : shown [("good", None)]%string ex_stale = Some [CStatus "good" CTrue []]%string /\
  (exists s, frun (flow_new [("good", None)]%string ex_obj) ex_stale = Some s /\ at_rest s /\
     statuses (f_ctrls s) = [CStatus "good" CUnknown ["x"]]%string).
Proof.
  split; [vm_compute; reflexivity|]. exists (the (frun (flow_new [("good", None)]%string ex_obj) ex_stale)).
  split; [apply the_some; vm_compute; by eexists|].
  split; [apply rest_b_ok; vm_compute; reflexivity|]. vm_compute. reflexivity.
Qed.
Print Assumptions C69_stale_refuted.

(** An operator with 65 controllers without sources: the last one is never added. *)
Definition ex_many : list (string * option string) := repeat ("c", Some "no source")%string 65.
Definition ex_fill (n : nat) : list action := concat (map (fun i => [AAdd; AEnter i 0; ASend i 0; AReturn]) (seq 0 n)).
Definition summary (s : flow) : nat * nat * option nat :=
  (length (f_ctrls s), f_chan s, match f_rec s with RAdd l | RPush l => Some (length l) | _ => None end).
Example ex_C69_stuck : broken ex_many = 65%nat /\
  summary <$> frun (flow_new ex_many ex_obj) (ex_fill 64 ++ [AAdd; AEnter 64 0]) = Some (65, 64, Some 0)%nat /\
  is_Some (frun (flow_new ex_many ex_obj) (ex_fill 64 ++ [AAdd; AEnter 64 0])) /\
  frun (flow_new ex_many ex_obj) (ex_fill 64 ++ [AAdd; AEnter 64 0; ASend 64 0]) = None /\
  frun (flow_new ex_many ex_obj) (ex_fill 64 ++ [AAdd; AEnter 64 0; AReturn]) = None.
Proof. vm_compute. split_and!; try done. by eexists. Qed.
