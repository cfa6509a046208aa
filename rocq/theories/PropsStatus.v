(** Property C39: the error report of a controller. *)
From Verif Require Import StatusModel StatusSpec StatusProofs.

(** After any sequence of reported errors: the last ten messages, in order,
    each shortened. *)
Theorem C39_last_ten : forall evs es, map is_push evs = map Some es ->
  report (foldl sstep reporter_new evs) = map trim (lastn 10 es).
Proof. intros evs es H. unfold report. by rewrite (pushes evs es H). Qed.
Print Assumptions C39_last_ten.

(** Never more than ten, with removals too; a removal takes the last one. *)
Theorem C39_bounded : forall evs, (length (report (foldl sstep reporter_new evs)) <= 10)%nat
  /\ report (sstep (foldl sstep reporter_new evs) EPop) = take (length (report (foldl sstep reporter_new evs)) - 1) (report (foldl sstep reporter_new evs)).
Proof.
  intros evs. unfold report. rewrite !map_length. split; [apply history_le; simpl; unfold stack_size; lia|]. simpl. symmetry. apply firstn_map.
Qed.
Print Assumptions C39_bounded.

(** What is shown first is the last one of the report, that is the newest one. *)
Theorem C39_top : forall evs e, let s := foldl sstep reporter_new evs in
  last (report s) = trim <$> top s /\ top (push s e) = Some e /\ top (push_critical s e) = Some e /\ (top s = None <-> report s = []).
Proof.
  intros evs e s. unfold report, top, push, push_critical, push_stack. cbn [errs]. split_and!.
  - by rewrite fmap_last.
  - case_decide; by rewrite last_snoc.
  - case_decide; by rewrite last_snoc.
  - destruct (errs s) as [|x l]; [done|]. split; [|done]. intros H. by apply last_None in H.
Qed.
Print Assumptions C39_top.
Example C39_top_example : top (foldl sstep reporter_new [EPush "a"; ECritical "b"; EPush "c"; EPop]) = Some "b"%string.
Proof. vm_compute. reflexivity. Qed.

(** Shortening: short messages stay, long ones keep their beginning and end. *)
Theorem C39_trim : forall s, (String.length (trim s) <= 245)%nat
  /\ ((String.length s <= 245)%nat -> trim s = s)
  /\ ((245 < String.length s)%nat -> exists a m b, s = a +:+ m +:+ b /\ trim s = a +:+ "[...]" +:+ b /\ String.length a = 119%nat /\ String.length b = 120%nat)
  /\ trim (trim s) = trim s.
Proof. intros s. split; [apply trim_length|]. split; [apply trim_short|]. split; [apply trim_long|apply trim_idem]. Qed.
Print Assumptions C39_trim.

(** The Ready condition: true exactly when nothing is reported; false exactly
    when something is and a critical error was ever pushed. *)
Theorem C39_ready : forall evs s, s = foldl sstep reporter_new evs ->
  (ready s = CTrue <-> report s = []) /\ (ready s = CFalse <-> report s <> [] /\ exists e, In (ECritical e) evs).
Proof. exact ready_spec. Qed.
Print Assumptions C39_ready.

Definition twelve : list sevent := map EPush ["1"; "2"; "3"; "4"; "5"; "6"; "7"; "8"; "9"; "10"; "11"; "12"]%string.
Fixpoint many (n : nat) (s : string) : string := match n with O => ""%string | S n => s +:+ many n s end.
Example ex_C39 : map is_push twelve = map Some ["1"; "2"; "3"; "4"; "5"; "6"; "7"; "8"; "9"; "10"; "11"; "12"]%string
  /\ report (foldl sstep reporter_new twelve) = ["3"; "4"; "5"; "6"; "7"; "8"; "9"; "10"; "11"; "12"]%string
  /\ report (foldl sstep reporter_new (twelve ++ [EPop; EPush "13"])) = ["3"; "4"; "5"; "6"; "7"; "8"; "9"; "10"; "11"; "13"]%string
  /\ String.length (trim (many 300 "x")) = 244%nat.
Proof. vm_compute. auto. Qed.

(** Refuted: "HasCritical returns true if the stack contains a critical error"
    (the comment of the function).  The critical error is gone, the condition is
    still "critical". *)
Theorem C39_critical_refuted :
  let s := foldl sstep reporter_new [ECritical "boom"; EPop; EPush "retry"] in report s = ["retry"%string] /\ ready s = CFalse.
Proof. vm_compute. auto. Qed.
Print Assumptions C39_critical_refuted.

(** Refuted: shortening may cut a character; the message is no longer UTF-8. *)
Theorem C39_utf8_refuted : utf8_ok (many 150 "é") = true /\ utf8_ok (trim (many 150 "é")) = false.
Proof. vm_compute. auto. Qed.
Print Assumptions C39_utf8_refuted.

(** Refuted for concurrent pushes, which nothing prevents when a controller has
    several sources: two workers that both find nine messages leave eleven, and
    from then on the report grows without bound. *)
Theorem C39_race_refuted : forall es,
  length (r_errs (rrun (Racy [] [Idle; Idle]) (nine ++ both ++ flat_map (fun e => [(0%nat, e); (0%nat, e)]) es))) = (11 + length es)%nat.
Proof. exact race. Qed.
Print Assumptions C39_race_refuted.
