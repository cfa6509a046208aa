(** Proofs about the status of Operator objects. *)
From Verif Require Import FlowSpec StatusProofs.

Lemma frun_app s r1 r2 : frun s (r1 ++ r2) = (s' ← frun s r1; frun s' r2).
Proof.
  revert s. induction r1 as [|a r1 IH]; intros s; [done|]. cbn [frun app].
  destruct (fstep s a) as [s'|]; [|done]. apply IH.
Qed.
Lemma frun_snoc s r a s' : frun s (r ++ [a]) = Some s' -> exists s1, frun s r = Some s1 /\ fstep s1 a = Some s'.
Proof.
  rewrite frun_app. intros H. apply bind_Some in H as (s1 & H1 & H2). exists s1. split; [done|].
  cbn [frun] in H2. apply bind_Some in H2 as (s2 & H2 & H3). by injection H3 as ->.
Qed.
(** Invariants of runs, the run so far being known. *)
Lemma frun_ind (s0 : flow) (I : list action -> flow -> Prop) :
  I [] s0 ->
  (forall r s a s', frun s0 r = Some s -> I r s -> fstep s a = Some s' -> I (r ++ [a]) s') ->
  forall r s, frun s0 r = Some s -> I r s.
Proof.
  intros H0 HS r. induction r as [|a r IH] using rev_ind; intros s H.
  { by injection H as <-. }
  apply frun_snoc in H as (s1 & H1 & H2). eauto.
Qed.

(** *** How a step changes the parts of the state *)

Ltac step_cases H :=
  match type of H with fstep ?s ?a = Some ?s' =>
    unfold fstep, set_ctrls in H; destruct a; simplify_eq/=;
    repeat (case_match; simplify_eq/=);
    repeat match goal with
    | H : (_ ≫= _) = Some _ |- _ => apply bind_Some in H as (? & ? & ?); simplify_eq/=
    end; repeat (case_match; simplify_eq/=)
  end.

(** A change of one controller. *)
Inductive cstep : action -> nat -> ctrl -> ctrl -> Prop :=
| cs_push i e c : cstep (APush i e) i c (pushed c (push (c_reporter c) e))
| cs_enter i t c c' : enter c t = Some c' -> cstep (AEnter i t) i c c'
| cs_send i t c c' : sent c t = Some c' -> cstep (ASend i t) i c c'.
Definition about (a : action) : Prop :=
  match a with APush _ _ | AEnter _ _ | ASend _ _ | AAdd => True | _ => False end.

Lemma step_ctrls s a s' : fstep s a = Some s' ->
  (f_ctrls s' = f_ctrls s /\ ~ about a) \/
  (exists i c c', f_ctrls s !! i = Some c /\ f_ctrls s' = <[i := c']> (f_ctrls s) /\ cstep a i c c' /\
     f_rec s' = f_rec s /\ f_fwd s' = f_fwd s) \/
  (exists d l, a = AAdd /\ f_rec s = RAdd (d :: l) /\ f_fwd s' = f_fwd s /\ f_chan s' = f_chan s /\
     ((d.2 = None /\ f_rec s' = RAdd l /\ f_ctrls s' = f_ctrls s ++ [ctrl_new d.1]) \/
      (exists e, d.2 = Some e /\ f_rec s' = RPush l /\
         f_ctrls s' = f_ctrls s ++ [pushed (ctrl_new d.1) (push_critical reporter_new e)]))).
Proof.
  intros H. step_cases H; try (left; split; [done|by intros []]).
  all: try (right; left; eexists _, _, _; split_and!; [done..|by constructor| |]; done).
  all: right; right; eexists (_, _), _; split_and!; [done..|]; cbn.
  - right. eexists. by split_and!.
  - by left.
Qed.

(** *** Phases *)

Definition adding (s : flow) : Prop := match f_rec s with RAdd _ | RPush _ => True | _ => False end.
Lemma phases l o r s : frun (flow_new l o) r = Some s ->
  (f_fwd s = FOff <-> adding s) /\ (f_fwd s = FOff -> forall u, f_cons s <> CUpdate u) /\
  (f_fwd s = FOff -> o_status (f_obj s) = o_status o).
Proof.
  revert r s. apply (frun_ind _ (fun _ s => _)); [by unfold adding|].
  intros r s a s' _ (I1 & I2 & I3) H. unfold adding in *.
  destruct s as [cs n fw co re ob]. cbn in I1, I2, I3.
  step_cases H; split_and!; cbn; try done; try tauto; try naive_solver.
Qed.

(** The specifications not yet dealt with. *)
Definition todo (s : flow) : list (string * option string) :=
  match f_rec s with RAdd l | RPush l => l | _ => [] end.
Definition hist (d : string * option string) (es : list string) : list string :=
  match d.2 with Some e => e :: es | None => es end.

Lemma errors_snoc i r a : errors_of i (r ++ [a]) =
  errors_of i r ++ (match a with APush j e => if decide (j = i) then [e] else [] | _ => [] end).
Proof. unfold errors_of. rewrite omap_app. f_equal. destruct a; cbn; try done. by case_decide. Qed.

(** A controller is what its specification and its errors make it. *)
Definition made (d : string * option string) (es : list string) (c : ctrl) : Prop :=
  c_name c = d.1 /\ errs (c_reporter c) = lastn stack_size (hist d es) /\
  critical (c_reporter c) = bool_decide (is_Some d.2).

Lemma lastn_le {A} n (l : list A) : (length (lastn n l) <= n)%nat.
Proof. unfold lastn. rewrite drop_length. lia. Qed.
Lemma lastn_short {A} n (l : list A) : (length l <= n)%nat -> lastn n l = l.
Proof. intros H. unfold lastn. by replace (length l - n)%nat with 0%nat by lia. Qed.
Lemma push_hist l e : push_stack (lastn stack_size l) e = lastn stack_size (l ++ [e]).
Proof.
  rewrite push_stack_lastn by apply lastn_le. apply lastn_lastn. unfold stack_size. lia.
Qed.
Lemma hist_snoc d es e : hist d (es ++ [e]) = hist d es ++ [e].
Proof. unfold hist. by destruct (d.2). Qed.

Definition histories (l : list (string * option string)) (r : list action) (s : flow) : Prop :=
  exists l1, l = l1 ++ todo s /\ Forall2 (fun d c => True) l1 (f_ctrls s) /\
    (forall i d c, l1 !! i = Some d -> f_ctrls s !! i = Some c -> made d (errors_of i r) c) /\
    (f_fwd s = FOff -> forall i, errors_of i r = []).

Lemma histories_hold l o r s : frun (flow_new l o) r = Some s -> histories l r s.
Proof.
  revert r s. apply (frun_ind _ (histories l)).
  { exists []. split_and!; [done|by constructor|done|done]. }
  intros r s a s' Hr (l1 & El & F & M & O) H.
  destruct (phases l o r s Hr) as (P & _). unfold adding in P.
  destruct (step_ctrls _ _ _ H) as [[Ec Na]|[(i & c & c' & Ei & Ec & C & Er & Ef)|(d & l2 & -> & Er & Ef & _ & D)]].
  - (* nothing happens to the controllers *)
    exists l1. rewrite Ec. split_and!; try done.
    + rewrite El. f_equal. clear -H Na. destruct s. unfold todo. step_cases H; done.
    + intros i d c E1 E2. rewrite errors_snoc.
      replace (match a with APush j e => if decide (j = i) then [e] else [] | _ => [] end) with (@nil string) by (by destruct a; [..|destruct Na|destruct Na|destruct Na| | | | | | | | |]).
      rewrite app_nil_r. by apply M.
    + intros E i. rewrite errors_snoc. rewrite O.
      2:{ clear -H E Na. destruct s. step_cases H; done. }
      by destruct a; [..|destruct Na|destruct Na|destruct Na| | | | | | | | |].
  - exists l1. unfold todo. rewrite Er, Ec, Ef. split_and!; [done| | |].
    + apply Forall2_same_length_lookup_2; [by rewrite insert_length; apply Forall2_length in F|done].
    + intros j d c2 E1 E2. rewrite errors_snoc.
      apply list_lookup_insert_Some in E2 as [(<- & -> & _)|[N E2]].
      * specialize (M i d c E1 Ei) as (M1 & M2 & M3). inversion C; subst; cbn.
        -- rewrite decide_True by done. split_and!; cbn; [done| |done]. rewrite M2. by rewrite push_hist, hist_snoc.
        -- rewrite app_nil_r. unfold enter in *. repeat case_match; simplify_eq/=; done.
        -- rewrite app_nil_r. unfold sent in *. repeat case_match; simplify_eq/=; done.
      * specialize (M j d c2 E1 E2). inversion C; subst; cbn.
        -- rewrite decide_False by done. by rewrite app_nil_r.
        -- by rewrite app_nil_r.
        -- by rewrite app_nil_r.
    + intros E j. rewrite errors_snoc, O by done. inversion C; subst; cbn; [|done..].
      exfalso. clear -H E. unfold fstep in H. by rewrite E in H.
  - assert (OO : f_fwd s = FOff) by (apply P; by rewrite Er).
    exists (l1 ++ [d]). pose proof (Forall2_length _ _ _ F) as L.
    unfold todo in El. rewrite Er in El.
    assert (Z : forall i, errors_of i (r ++ [AAdd]) = []) by (intros i; rewrite errors_snoc, O by done; done).
    assert (exists c, f_ctrls s' = f_ctrls s ++ [c] /\ made d [] c /\ todo s' = l2) as (c & Ec & Md & Et).
    { destruct D as [(E & Er' & Ec)|(e & E & Er' & Ec)]; eexists; (split; [exact Ec|]); unfold todo; rewrite Er';
        (split; [|done]); unfold made, hist; rewrite E; done. }
    rewrite Ec, Et. split_and!.
    + by rewrite <- app_assoc.
    + apply Forall2_app; [done|by repeat constructor].
    + intros i d' c' E1 E2. rewrite Z. apply lookup_app_Some in E1 as [E1|[G1 E1]].
      * rewrite lookup_app_l in E2 by (rewrite <- L; by eapply lookup_lt_Some).
        specialize (M i d' c' E1 E2). by rewrite O in M.
      * rewrite lookup_app_r in E2 by lia.
        apply list_lookup_singleton_Some in E1 as [E0 <-]. apply list_lookup_singleton_Some in E2 as [_ <-]. done.
    + intros _. apply Z.
Qed.

Lemma lastn_cons (e : string) es : exists x l, lastn stack_size (e :: es) = x :: l.
Proof.
  destruct (lastn stack_size (e :: es)) as [|x l] eqn:E; [|by eauto]. exfalso.
  assert (length (lastn stack_size (e :: es)) = 0%nat) as H by by rewrite E.
  unfold lastn, stack_size in H. rewrite drop_length in H. cbn [length] in H. lia.
Qed.
Lemma made_expected d es c : made d es c -> cstatus_of c = expected d es.
Proof.
  intros (M1 & M2 & M3). unfold cstatus_of, expected, report, ready. rewrite M1, M2, M3. unfold hist.
  change 10%nat with stack_size. destruct d as [n [e|]]; cbn [fst snd].
  - destruct (lastn_cons e es) as (x & l & ->). by rewrite bool_decide_true by eauto.
  - destruct es as [|e es]; [done|]. destruct (lastn_cons e es) as (x & l & ->).
    by rewrite bool_decide_false by (by intros []).
Qed.
(** The snapshot of a started operator. *)
Lemma snapshot l o r s : frun (flow_new l o) r = Some s -> f_fwd s <> FOff ->
  statuses (f_ctrls s) = expected_all l r.
Proof.
  intros H N. destruct (histories_hold l o r s H) as (l1 & El & F & M & O).
  assert (todo s = []) as E.
  { destruct (phases l o r s H) as (P & _). unfold adding in P. unfold todo. destruct (f_rec s); tauto. }
  rewrite E, app_nil_r in El. subst l1. unfold statuses, expected_all.
  apply list_eq. intros i. rewrite list_lookup_fmap, list_lookup_imap.
  destruct (f_ctrls s !! i) as [c|] eqn:Ec; destruct (l !! i) as [d|] eqn:Ed; cbn.
  - f_equal. apply made_expected. by apply M.
  - apply lookup_lt_Some in Ec. apply lookup_ge_None in Ed. apply Forall2_length in F. lia.
  - apply lookup_lt_Some in Ed. apply lookup_ge_None in Ec. apply Forall2_length in F. lia.
  - done.
Qed.

(** *** The snapshot of the reconciler is never old *)

Lemma orderly_app s r1 r2 : orderly s (r1 ++ r2) -> orderly s r1.
Proof. intros H ra i e rb sa -> Ha. apply (H ra i e (rb ++ r2) sa); [by rewrite <- app_assoc|done]. Qed.
Definition rec_fresh (s : flow) : Prop :=
  match f_rec s with RUpdate (UHave st _) | RUpdate (UTry st _ _) => st = statuses (f_ctrls s) | _ => True end.
Lemma statuses_insert cs i c c' : cs !! i = Some c -> cstatus_of c' = cstatus_of c ->
  statuses (<[i := c']> cs) = statuses cs.
Proof.
  intros E1 E2. unfold statuses. rewrite list_fmap_insert, E2. apply list_insert_id. by rewrite list_lookup_fmap, E1.
Qed.
Lemma enter_status c t c' : enter c t = Some c' -> cstatus_of c' = cstatus_of c.
Proof. unfold enter. intros H. repeat case_match; simplify_eq/=; done. Qed.
Lemma sent_status c t c' : sent c t = Some c' -> cstatus_of c' = cstatus_of c.
Proof. unfold sent. intros H. repeat case_match; simplify_eq/=; done. Qed.
(** Only a push changes the status of a started operator. *)
Lemma status_step s a s' : fstep s a = Some s' -> (forall i e, a <> APush i e) -> a <> AAdd ->
  statuses (f_ctrls s') = statuses (f_ctrls s).
Proof.
  intros H N1 N2. destruct (step_ctrls _ _ _ H) as [[-> _]|[(i & c & c' & Ei & -> & C & _)|(d & l2 & -> & _)]]; [done| |done].
  apply (statuses_insert _ _ c); [done|]. inversion C; subst; [naive_solver|by eapply enter_status|by eapply sent_status].
Qed.
Lemma rec_fresh_holds l o r s : frun (flow_new l o) r = Some s -> orderly (flow_new l o) r -> rec_fresh s.
Proof.
  revert r s. apply (frun_ind _ (fun r s => orderly _ r -> rec_fresh s)); [done|].
  intros r s a s' Hr I H O. specialize (I (orderly_app _ _ _ O)).
  unfold rec_fresh in *. destruct (f_rec s') as [| |u|] eqn:E; try done.
  assert (f_rec s <> RDone) as ND.
  { intros E'. clear -H E E'. destruct s; cbn in *; subst. unfold fstep, set_ctrls in H. destruct a; repeat case_match; simplify_eq/=.
    all: repeat match goal with H : (_ ≫= _) = Some _ |- _ => apply bind_Some in H as (? & ? & ?) end; repeat case_match; simplify_eq/=. }
  assert (forall i e, a <> APush i e) as NP.
  { intros i e ->. apply ND. apply (O r i e [] s); done. }
  assert (a <> AAdd) as NA.
  { intros ->. clear -H E. destruct s. step_cases H. }
  rewrite (status_step _ _ _ H NP NA). clear O NP NA ND Hr. destruct s. cbn in *.
  unfold fstep, set_ctrls in H. destruct a; simplify_eq/=; repeat case_match; simplify_eq/=.
  all: repeat match goal with H : (_ ≫= _) = Some _ |- _ => apply bind_Some in H as (? & ? & ?) end; repeat case_match; simplify_eq/=; try done.
  all: unfold ustep in *; repeat case_match; simplify_eq/=; try done.
Qed.

(** *** After an error was passed on, the status is read and written *)

(** A status of the started operator since the run [r] began in [s1]. *)
Definition since (s1 : flow) (r : list action) (st : list cstatus) : Prop :=
  exists r3 r4 s3, r = r3 ++ r4 /\ frun s1 r3 = Some s3 /\ f_fwd s3 <> FOff /\ st = statuses (f_ctrls s3).
Lemma since_app s1 r r' st : since s1 r st -> since s1 (r ++ r') st.
Proof. intros (r3 & r4 & s3 & -> & H). exists r3, (r4 ++ r'), s3. by rewrite app_assoc. Qed.
Lemma since_now s1 r s : frun s1 r = Some s -> f_fwd s <> FOff -> since s1 r (statuses (f_ctrls s)).
Proof. intros H N. exists r, [], s. by rewrite app_nil_r. Qed.

Definition cons_since (s1 : flow) (r : list action) (s : flow) : Prop :=
  match f_cons s with CUpdate (UHave st _) | CUpdate (UTry st _ _) => since s1 r st | _ => True end.
Definition on_its_way (s1 : flow) (r : list action) (s : flow) : Prop :=
  (0 < f_chan s)%nat \/ f_fwd s = FHold \/
  (cons_since s1 r s /\
   ((exists u, f_cons s = CUpdate u) \/ (exists u, f_rec s = RUpdate u) \/ since s1 r (o_status (f_obj s)))).

Lemma on_its_way_step l o r1 s1 r s a s' :
  frun (flow_new l o) r1 = Some s1 -> frun s1 r = Some s -> fstep s a = Some s' ->
  match a with AUpdateFail | AReportFail => False | _ => True end ->
  rec_fresh s -> on_its_way s1 r s -> on_its_way s1 (r ++ [a]) s'.
Proof.
  intros H1 H2 H NF K I.
  assert (frun (flow_new l o) (r1 ++ r) = Some s) as HH by (by rewrite frun_app, H1).
  destruct (phases l o _ s HH) as (P1 & P2 & _).
  assert (NOW : f_fwd s <> FOff -> since s1 (r ++ [a]) (statuses (f_ctrls s))).
  { intros N. apply since_app. by apply since_now. }
  assert (AP : forall st, since s1 r st -> since s1 (r ++ [a]) st) by (intros; by apply since_app).
  unfold on_its_way, cons_since, rec_fresh, adding in *.
  revert NOW AP I. generalize (since s1 (r ++ [a])) as S2. generalize (since s1 r) as S1. intros S1 S2 NOW AP I.
  clear H1 H2 HH. destruct s as [cs n fw co re ob]. cbn in *.
  unfold fstep, set_ctrls in H. destruct a; simplify_eq/=; repeat case_match; simplify_eq/=.
  all: repeat match goal with H : (_ ≫= _) = Some _ |- _ => apply bind_Some in H as (? & ? & ?) end; repeat case_match; simplify_eq/=.
  all: try (unfold ustep in *; repeat case_match; simplify_eq/=).
  all: naive_solver.
Qed.

Lemma no_failure_snoc r a : no_failure (r ++ [a]) ->
  no_failure r /\ match a with AUpdateFail | AReportFail => False | _ => True end.
Proof. unfold no_failure. rewrite Forall_app, Forall_singleton. done. Qed.
Lemma arrives l o r1 s1 : frun (flow_new l o) r1 = Some s1 -> on_its_way s1 [] s1 ->
  forall r2 s, frun s1 r2 = Some s -> orderly (flow_new l o) (r1 ++ r2) -> no_failure r2 -> on_its_way s1 r2 s.
Proof.
  intros H1 I. apply (frun_ind _ (fun r s => _ -> _ -> on_its_way s1 r s)); [done|].
  intros r s a s' H2 IH H O NF. apply no_failure_snoc in NF as [NF Na].
  rewrite app_assoc in O. apply orderly_app in O as O'.
  eapply on_its_way_step; [done..| |by apply IH].
  apply (rec_fresh_holds l o (r1 ++ r)); [by rewrite frun_app, H1|done].
Qed.
Lemma rest_since s1 r s : on_its_way s1 r s -> at_rest s -> since s1 r (o_status (f_obj s)).
Proof.
  intros I (R1 & R2 & R3 & R4 & _). destruct I as [I|[I|(_ & [(u & I)|[(u & I)|I]])]]; [lia|congruence| |congruence|done].
  destruct R4; congruence.
Qed.
Lemma starts_on_its_way l o r a s1 : frun (flow_new l o) (r ++ [a]) = Some s1 ->
  (a = AStart \/ exists i t, a = ASend i t) -> on_its_way s1 [] s1.
Proof.
  intros H D. apply frun_snoc in H as (s0 & H0 & H).
  destruct (phases l o _ _ H0) as (P1 & P2 & _). unfold adding in P1.
  destruct s0 as [cs n fw co re ob]. cbn in *.
  destruct D as [->|(i & t & ->)]; cbn in H.
  - destruct re as [[|]| | |]; try done. injection H as <-. right. right. unfold cons_since. cbn.
    split; [|naive_solver]. destruct co as [| |u]; [done..|]. exfalso. by apply (P2 (proj2 P1 Logic.I) u).
  - left. destruct (cs !! i); [|done]. destruct (_ <=? _)%nat; [|done].
    apply bind_Some in H as (c' & _ & H). injection H as <-. cbn. lia.
Qed.

Lemma shown_since l o r1 a r2 s1 s :
  frun (flow_new l o) (r1 ++ [a]) = Some s1 -> (a = AStart \/ exists i t, a = ASend i t) ->
  frun s1 r2 = Some s -> orderly (flow_new l o) (r1 ++ a :: r2) -> no_failure r2 -> at_rest s ->
  exists r3 r4, r2 = r3 ++ r4 /\ o_status (f_obj s) = expected_all l (r1 ++ a :: r3).
Proof.
  intros H1 D H2 O NF R.
  assert (r1 ++ a :: r2 = (r1 ++ [a]) ++ r2) as E by by rewrite <- app_assoc. rewrite E in O.
  destruct (rest_since s1 r2 s (arrives l o _ s1 H1 (starts_on_its_way _ _ _ _ _ H1 D) r2 s H2 O NF) R)
    as (r3 & r4 & s3 & -> & H3 & N & ES).
  exists r3, r4. split; [done|]. rewrite ES.
  replace (r1 ++ a :: r3) with ((r1 ++ [a]) ++ r3) by (by rewrite <- app_assoc).
  apply (snapshot l o _ s3); [|done]. by rewrite frun_app, H1.
Qed.

(** *** The limiter *)

Lemma enters_snoc i r a : enters i (r ++ [a]) =
  (enters i r + match a with AEnter j _ => if decide (j = i) then 1 else 0 | _ => 0 end)%nat.
Proof. unfold enters. rewrite omap_app, app_length. f_equal. destruct a; cbn; try done. by case_decide. Qed.
Lemma last_send_snoc i r a : last_send i (r ++ [a]) =
  match a with ASend j t => if decide (j = i) then Some t else last_send i r | _ => last_send i r end.
Proof.
  unfold last_send. rewrite omap_app.
  destruct a; cbn; rewrite ?app_nil_r; try done. case_decide; cbn; [by rewrite last_snoc|by rewrite app_nil_r].
Qed.
Definition limits (r : list action) (s : flow) : Prop := forall i,
  match f_ctrls s !! i with
  | Some c => (l_count (c_limiter c) + (if c_sending c then 1 else 0))%nat = enters i r /\
      (forall t, last_send i r = Some t -> l_last (c_limiter c) = t)
  | None => enters i r = 0%nat /\ last_send i r = None
  end.
Lemma limits_hold l o r s : frun (flow_new l o) r = Some s -> limits r s.
Proof.
  revert r s. apply (frun_ind _ limits); [done|].
  intros r s a s' Hr I H j. specialize (I j). rewrite enters_snoc, last_send_snoc.
  destruct (step_ctrls _ _ _ H) as [[Ec Na]|[(i & c & c' & Ei & Ec & C & Er & Ef)|(d & l2 & -> & Er & Ef & _ & D)]].
  - rewrite Ec. destruct a; try by destruct Na. all: by rewrite Nat.add_0_r.
  - rewrite Ec. destruct (decide (i = j)) as [->|N].
    + rewrite list_lookup_insert by (by eapply lookup_lt_Some). rewrite Ei in I.
      inversion C as [? ? ?|? ? ? ? EE|? ? ? ? EE]; subst; cbn; rewrite ?decide_True by done.
      * by rewrite Nat.add_0_r.
      * unfold enter in EE. repeat case_match; simplify_eq/=; (split; [lia|naive_solver]).
      * unfold sent in EE. repeat case_match; simplify_eq/=. split; [lia|naive_solver].
    + rewrite list_lookup_insert_ne by done.
      inversion C; subst; cbn; rewrite ?decide_False by done; by rewrite Nat.add_0_r.
  - rewrite Nat.add_0_r.
    assert (exists c, f_ctrls s' = f_ctrls s ++ [c] /\ c_limiter c = limiter_new /\ c_sending c = false) as (c & Ec & Ek & Es).
    { destruct D as [(E & Er' & Ec)|(e & E & Er' & Ec)]; eexists; (split; [exact Ec|]); done. }
    rewrite Ec. destruct (f_ctrls s' !! j) as [x|] eqn:Ej; rewrite Ec in Ej.
    + rewrite Ej. apply lookup_app_Some in Ej as [Ej|[G Ej]]; [by rewrite Ej in I|].
      apply list_lookup_singleton_Some in Ej as [_ <-]. rewrite lookup_ge_None_2 in I by done.
      destruct I as [I1 I2]. rewrite Ek, Es, I1, I2. done.
    + rewrite Ej. apply lookup_ge_None in Ej. rewrite app_length in Ej.
      by rewrite lookup_ge_None_2 in I by lia.
Qed.
Lemma unhurried_app r1 r2 : unhurried (r1 ++ r2) -> unhurried r1.
Proof. intros H ra i t rb ->. apply (H ra i t (rb ++ r2)). by rewrite <- app_assoc. Qed.
Lemma unhurried_allows l o r s i t c : frun (flow_new l o) r = Some s -> unhurried (r ++ [AEnter i t]) ->
  f_ctrls s !! i = Some c -> c_sending c = false -> allows (c_limiter c) t = true.
Proof.
  intros H U E Q. pose proof (limits_hold l o r s H i) as I. rewrite E, Q in I. destruct I as [I1 I2].
  unfold allows, l_first, l_interval. destruct (U r i t [] eq_refl) as [U1|(t' & U1 & U2)].
  - assert ((l_count (c_limiter c) <? 3)%nat = true) as -> by (apply Nat.ltb_lt; lia).
    by rewrite orb_true_r.
  - rewrite (I2 t' U1). assert ((2000000000 <=? t - t')%Z = true) as -> by (apply Z.leb_le; lia).
    by rewrite orb_true_r.
Qed.

(** *** When every error is passed on *)

Definition pending (c : ctrl) : nat := (c_waiting c + (if c_sending c then 1 else 0))%nat.
Definition pendings (s : flow) : nat := sum_list_with pending (f_ctrls s).
Lemma sum_insert {A} (f : A -> nat) l i x y : l !! i = Some x ->
  (sum_list_with f (<[i := y]> l) + f x = sum_list_with f l + f y)%nat.
Proof.
  revert i. induction l as [|z l IH]; intros [|i] H; simplify_eq/=; [lia|]. specialize (IH i H). lia.
Qed.
Definition pushing (a : action) : bool := match a with APush _ _ => true | _ => false end.
Definition sending (a : action) : bool := match a with ASend _ _ => true | _ => false end.
Definition is_send (a : action) : Prop := exists i t, a = ASend i t.

Lemma pendings_step l o r s a s' : frun (flow_new l o) r = Some s -> unhurried (r ++ [a]) -> fstep s a = Some s' ->
  sending a = false ->
  (pendings s <= pendings s')%nat /\ (pushing a = true -> (pendings s < pendings s')%nat).
Proof.
  intros Hr U H NS. unfold pendings.
  destruct (step_ctrls _ _ _ H) as [[Ec Na]|[(i & c & c' & Ei & Ec & C & _)|(d & l2 & -> & _ & _ & _ & D)]].
  - rewrite Ec. split; [lia|]. destruct a; try done.
  - rewrite Ec. pose proof (sum_insert pending (f_ctrls s) i c c' Ei) as S.
    inversion C as [? ? ?|? ? ? ? EE|? ? ? ? EE]; subst; [| |done].
    + assert (pending (pushed c (push (c_reporter c) e)) = Datatypes.S (pending c)) as Ep by done.
      rewrite Ep in S. split; [|intros _]; lia.
    + split; [|done]. enough (pending c' = pending c) by lia.
      unfold enter in EE. destruct (c_waiting c) as [|n] eqn:E1; [done|]. destruct (c_sending c) eqn:E2; [done|].
      rewrite (unhurried_allows l o r s i t c) in EE by done. injection EE as <-.
      unfold pending. rewrite E1, E2. cbn. lia.
  - split; [|done]. destruct D as [(E & Er' & ->)|(e & E & Er' & ->)]; rewrite sum_list_with_app; lia.
Qed.
Lemma no_push_after l o r1 s1 : frun (flow_new l o) r1 = Some s1 -> forall r2 s, frun s1 r2 = Some s ->
  unhurried (r1 ++ r2) -> Forall (fun a => sending a = false) r2 ->
  (pendings s1 <= pendings s)%nat /\ (pendings s = 0%nat -> Forall (fun a => pushing a = false) r2).
Proof.
  intros H1. apply (frun_ind _ (fun r s => unhurried (r1 ++ r) -> Forall (fun a => sending a = false) r ->
    (pendings s1 <= pendings s)%nat /\ (pendings s = 0%nat -> Forall (fun a => pushing a = false) r))); [done|].
  intros r s a s' H2 IH H U NS. apply Forall_app in NS as [NS Na]. rewrite Forall_singleton in Na.
  rewrite app_assoc in U. destruct (IH (unhurried_app _ _ U) NS) as [I1 I2].
  assert (frun (flow_new l o) (r1 ++ r) = Some s) as H12 by by rewrite frun_app, H1.
  destruct (pendings_step l o _ s a s' H12 U H Na) as [P1 P2].
  split; [lia|]. intros Z. apply Forall_app. split; [apply I2; lia|]. apply Forall_singleton.
  destruct (pushing a); [|done]. specialize (P2 eq_refl). lia.
Qed.
(** The last occurrence. *)
Lemma last_split {A} (f : A -> bool) r : Forall (fun a => f a = false) r \/
  exists r1 a r2, r = r1 ++ a :: r2 /\ f a = true /\ Forall (fun a => f a = false) r2.
Proof.
  induction r as [|a r IH] using rev_ind; [by left|]. destruct (f a) eqn:E.
  { right. exists r, a, []. by split_and!. }
  destruct IH as [IH|(r1 & b & r2 & -> & F1 & F2)].
  - left. apply Forall_app. by rewrite Forall_singleton.
  - right. exists r1, b, (r2 ++ [a]). split_and!; [by rewrite <- app_assoc|done|].
    apply Forall_app. by rewrite Forall_singleton.
Qed.
Lemma errors_no_push i r1 r2 : Forall (fun a => pushing a = false) r2 -> errors_of i (r1 ++ r2) = errors_of i r1.
Proof.
  intros F. unfold errors_of. rewrite omap_app.
  assert (omap (fun a => match a with APush j e => if decide (j = i) then Some e else None | _ => None end) r2 = []) as ->;
    [|by rewrite app_nil_r].
  induction F as [|a r2 Fa F IH]; [done|]. cbn. by destruct a.
Qed.
Lemma rest_pending s : at_rest s -> pendings s = 0%nat.
Proof.
  intros (_ & _ & _ & _ & F). unfold pendings. induction F as [|c cs [E1 E2] F IH]; [done|]. cbn.
  unfold pending at 1. by rewrite E1, E2, IH.
Qed.
Definition starting (a : action) : bool := match a with AStart => true | _ => false end.
Lemma started l o r s : frun (flow_new l o) r = Some s -> f_fwd s <> FOff ->
  exists r1 r2, r = r1 ++ AStart :: r2.
Proof.
  revert r s. apply (frun_ind _ (fun r s => f_fwd s <> FOff -> exists r1 r2, r = r1 ++ AStart :: r2)); [done|].
  intros r s a s' Hr IH H N. destruct (starting a) eqn:E.
  { exists r, []. by destruct a. }
  assert (f_fwd s <> FOff) as N'. { intros E'. clear IH Hr. destruct s; cbn in *; subst. step_cases H. }
  destruct (IH N') as (r1 & r2 & ->). exists r1, (r2 ++ [a]). by rewrite <- app_assoc.
Qed.

Lemma expected_no_push l r1 r2 : Forall (fun a => pushing a = false) r2 -> expected_all l (r1 ++ r2) = expected_all l r1.
Proof.
  intros F. unfold expected_all. apply list_eq. intros i. rewrite !list_lookup_imap.
  destruct (l !! i); [|done]. cbn. by rewrite errors_no_push.
Qed.
Lemma no_failure_app r1 r2 : no_failure (r1 ++ r2) -> no_failure r2.
Proof. unfold no_failure. rewrite Forall_app. tauto. Qed.
(** The part of a run after the last error passed on, or after the start. *)
Lemma final_part l o r s : frun (flow_new l o) r = Some s -> unhurried r -> at_rest s ->
  exists r1 a r2, r = r1 ++ a :: r2 /\ (a = AStart \/ exists i t, a = ASend i t) /\
    Forall (fun a => pushing a = false) r2.
Proof.
  intros H U R. pose proof (rest_pending s R) as Z.
  destruct (last_split (fun a => sending a || starting a) r) as [F|(r1 & a & r2 & -> & Fa & F)].
  - exfalso. destruct (started l o r s H) as (r1 & r2 & ->); [destruct R as (_ & E & _); by rewrite E|].
    apply Forall_app in F as [_ F]. apply Forall_cons in F as [F _]. done.
  - exists r1, a, r2. split; [done|]. split.
    { destruct a; try done; [by left|right; eauto]. }
    replace (r1 ++ a :: r2) with ((r1 ++ [a]) ++ r2) in * by (by rewrite <- app_assoc).
    rewrite frun_app in H. apply bind_Some in H as (s1 & H1 & H2).
    destruct (no_push_after l o _ s1 H1 r2 s H2 U) as [_ P]; [|by apply P].
    eapply Forall_impl; [exact F|]. intros b Hb. by apply orb_false_iff in Hb as [-> _].
Qed.
Lemma shown_current l o r s : frun (flow_new l o) r = Some s ->
  orderly (flow_new l o) r -> no_failure r -> unhurried r -> at_rest s ->
  o_status (f_obj s) = expected_all l r.
Proof.
  intros H O NF U R. destruct (final_part l o r s H U R) as (r1 & a & r2 & -> & D & F).
  assert (H' := H). replace (r1 ++ a :: r2) with ((r1 ++ [a]) ++ r2) in H' by (by rewrite <- app_assoc).
  rewrite frun_app in H'. apply bind_Some in H' as (s1 & H1 & H2).
  destruct (shown_since l o r1 a r2 s1 s H1 D H2 O) as (r3 & r4 & -> & ->); [|done|].
  { apply (no_failure_app (r1 ++ [a])). by rewrite <- app_assoc. }
  apply Forall_app in F as [F3 F4].
  replace (r1 ++ a :: r3 ++ r4) with ((r1 ++ a :: r3) ++ r4) by (by rewrite <- app_assoc).
  symmetry. by apply expected_no_push.
Qed.

(** *** Construction errors fill the channel *)

Lemma broken_cons d l : broken (d :: l) = ((if d.2 then 1 else 0) + broken l)%nat.
Proof. unfold broken. cbn. by destruct (d.2). Qed.
(** While controllers are added, the errors of those that could not be
    constructed are in the channel, but for one that may still be sent. *)
Definition newest (s : flow) : nat :=
  match f_rec s, last (f_ctrls s) with RPush _, Some c => pending c | _, _ => 0 end.
Definition fills (l : list (string * option string)) (s : flow) : Prop :=
  (f_chan s <= chan_size)%nat /\
  (adding s ->
     broken l = (broken (todo s) + f_chan s + newest s)%nat /\
     (forall i c, f_ctrls s !! i = Some c ->
        pending c = 0%nat \/ (S i = length (f_ctrls s) /\ (exists l', f_rec s = RPush l') /\ pending c = 1%nat /\
          (c_sending c = false -> c_limiter c = limiter_new))) /\
     (forall l', f_rec s = RPush l' -> f_ctrls s <> [])).
Lemma fills_hold l o r s : frun (flow_new l o) r = Some s -> fills l s.
Proof.
  revert r s. apply (frun_ind _ (fun _ => fills l)).
  { split; [cbn; lia|]. intros _. split_and!; [|done|done]. unfold newest, todo. cbn [flow_new f_rec f_chan]. lia. }
  intros r s a s' Hr [I0 I] H.
  assert (f_chan s' <= chan_size)%nat as C'.
  { clear -I0 H. destruct s. unfold chan_size in *. step_cases H; try lia.
    match goal with E : (_ <? _)%nat = true |- _ => apply Nat.ltb_lt in E; unfold chan_size in E; lia end. }
  split; [done|]. intros A'.
  assert (adding s) as A.
  { clear -A' H. unfold adding in *. destruct s. cbn. step_cases H; done. }
  destruct (I A) as (I1 & I2 & I3). clear I.
  destruct (phases l o r s Hr) as (P & _). pose proof (proj2 P A) as Off. clear P Hr.
  destruct (step_ctrls _ _ _ H) as [[Ec Na]|[(i & c & c' & Ei & Ec & C & Er & Ef)|(d & l2 & -> & Er & Ef & Eh & D)]].
  - assert ((f_rec s' = f_rec s /\ f_chan s' = f_chan s) \/
      (exists l' c, f_rec s = RPush l' /\ f_rec s' = RAdd l' /\ f_chan s' = f_chan s /\ last (f_ctrls s) = Some c /\ quiet c = true))
      as [[E1 E2]|(l' & c & E1 & E2 & E3 & E4 & E5)].
    { clear -H A A' Off Na. unfold adding in *. destruct s. cbn in *. subst. step_cases H; try done; try (by left); naive_solver. }
    + rewrite Ec, E1, E2. unfold todo, newest in *. rewrite E1, Ec. done.
    + assert (pending c = 0%nat) as Ep.
      { unfold quiet in E5. unfold pending. destruct (c_waiting c), (c_sending c); done. }
      unfold todo, newest in *. rewrite E1, E4, Ep in I1. rewrite E2, E3, Ec. split_and!; [done| |done].
      intros i x Ex. left. destruct (I2 i x Ex) as [?|(L & _ & Px & _)]; [done|].
      rewrite last_lookup in E4. replace (Nat.pred (length (f_ctrls s))) with i in E4 by lia. congruence.
  - assert (pending c = 0%nat -> False) as NP.
    { intros Z. unfold pending in Z. inversion C as [? ? ?|? ? ? ? EE|? ? ? ? EE]; subst.
      - unfold fstep in H. by rewrite Off in H.
      - unfold enter in EE. destruct (c_waiting c); [done|lia].
      - unfold sent in EE. destruct (c_sending c); [lia|done]. }
    destruct (I2 i c Ei) as [?|(L & (l' & El) & P1 & P2)]; [by exfalso; apply NP|].
    assert (last (f_ctrls s) = Some c) as Lc by (rewrite last_lookup; by replace (Nat.pred (length (f_ctrls s))) with i by lia).
    assert (last (f_ctrls s') = Some c') as Lc'.
    { rewrite last_lookup, Ec, insert_length. replace (Nat.pred (length (f_ctrls s))) with i by lia.
      apply list_lookup_insert. by eapply lookup_lt_Some. }
    unfold todo, newest in *. rewrite El, Lc in I1. rewrite Er, Lc', El.
    assert (pending c' + f_chan s' = pending c + f_chan s /\ (pending c' = 0 \/ pending c' = 1 /\ c_sending c' = true))%nat as [Q1 Q2].
    { inversion C as [? ? ?|? ? ? ? EE|? ? ? ? EE]; subst.
      - unfold fstep in H. by rewrite Off in H.
      - assert (f_chan s' = f_chan s) as ->. { clear -H. destruct s. step_cases H; done. }
        unfold enter in EE. unfold pending in *. destruct (c_waiting c) as [|n] eqn:E1; [done|].
        destruct (c_sending c) eqn:E2; [done|]. rewrite (P2 eq_refl) in EE. cbn in EE. injection EE as <-. cbn. split; [lia|right; split; [lia|done]].
      - assert (f_chan s' = S (f_chan s)) as ->. { clear -H. destruct s. step_cases H; done. }
        unfold sent in EE. unfold pending in *. destruct (c_sending c) eqn:E2; [|done]. injection EE as <-. cbn. split; [lia|left; lia]. }
    split_and!; [lia| |].
    + intros j x Ex. rewrite Ec, insert_length. rewrite Ec in Ex.
      apply list_lookup_insert_Some in Ex as [(<- & <- & _)|[N Ex]].
      * destruct Q2 as [Q2|[Q2 Q3]]; [by left|right]. split_and!; [done|by eauto|done|by rewrite Q3].
      * destruct (I2 j x Ex) as [?|(L' & R)]; [by left|]. exfalso. lia.
    + intros l2 _. rewrite Ec. intros Z. apply (I3 l' El). destruct (f_ctrls s); [done|]. by destruct i.
  - assert (Z : forall i x, f_ctrls s !! i = Some x -> pending x = 0%nat).
    { intros i x Ex. destruct (I2 i x Ex) as [?|(_ & (l' & El) & _)]; [done|congruence]. }
    unfold todo, newest in *. rewrite Er in I1. rewrite broken_cons in I1.
    destruct D as [(E & Er' & Ec)|(e & E & Er' & Ec)]; rewrite Er', Ec, ?last_snoc, Eh; rewrite E in I1.
    + split_and!; [lia| |done]. intros i x Ex. left. apply lookup_app_Some in Ex as [Ex|[_ Ex]]; [by eapply Z|].
      by apply list_lookup_singleton_Some in Ex as [_ <-].
    + split_and!; [change (pending (pushed (ctrl_new d.1) (push_critical reporter_new e))) with 1%nat; lia| |].
      * intros i x Ex. apply lookup_app_Some in Ex as [Ex|[G Ex]]; [left; by eapply Z|]. right.
        apply list_lookup_singleton_Some in Ex as [G' <-]. rewrite app_length. cbn. split_and!; [lia|by eauto|done|done].
      * intros _ _. by destruct (f_ctrls s).
Qed.
Lemma stuck l o r s : frun (flow_new l o) r = Some s -> (chan_size < broken l)%nat ->
  f_fwd s = FOff /\ o_status (f_obj s) = o_status o.
Proof.
  intros H B. assert (f_fwd s = FOff) as E; [|split; [done|by apply (phases l o r s H)]].
  revert r s H. apply (frun_ind _ (fun _ s => f_fwd s = FOff)); [done|].
  intros r s a s' Hr IH H.
  assert (f_fwd s' = FOff \/ f_rec s = RAdd []) as [?|E]; [|done|exfalso].
  { clear -H IH. destruct s; cbn in *; subst. step_cases H; try (by left); by right. }
  destruct (fills_hold l o r s Hr) as [F1 F2]. unfold adding, todo, newest in F2. rewrite E in F2.
  destruct (F2 Logic.I) as (F3 & _). unfold broken in F3 at 2. cbn in F3. unfold chan_size in *. lia.
Qed.

(** *** The program comes to rest by itself *)

Definition w_upd (u : updater) : nat := match u with UStart => 11 | UHave _ n => 2 * n | UTry _ _ n => 2 * n + 1 end.
Definition w_cons (c : consumer) : nat := match c with CIdle => 0 | COther => 1 | CUpdate u => S (w_upd u) end.
Definition w_fwd (f : forwarder) : nat := match f with FHold => 13 | _ => 0 end.
Definition w_rec (r : reconcile) : nat :=
  match r with RAdd l => 18 * length l + 13 | RPush l => 18 * length l + 14 | RUpdate u => S (w_upd u) | RDone => 0 end.
Definition w_ctrl (c : ctrl) : nat := (16 * c_waiting c + (if c_sending c then 15 else 0))%nat.
Definition weight (s : flow) : nat :=
  (w_cons (f_cons s) + w_fwd (f_fwd s) + w_rec (f_rec s) + 14 * f_chan s + sum_list_with w_ctrl (f_ctrls s))%nat.

Lemma w_step cs o u lag o' u' : ustep cs o u lag = Some (o', Some u') -> (w_upd u' < w_upd u)%nat.
Proof.
  unfold ustep, u_attempts. intros H. repeat case_match; simplify_eq/=; lia.
Qed.
Lemma weight_step s a s' : fstep s a = Some s' -> internal a -> (weight s' < weight s)%nat.
Proof.
  intros H Na. destruct s as [cs n fw co re ob]. unfold weight. cbn [f_ctrls f_chan f_fwd f_cons f_rec f_obj].
  unfold fstep, set_ctrls in H. cbn [f_ctrls f_chan f_fwd f_cons f_rec f_obj] in H. destruct a; try done.
  - (* AAdd *) destruct re as [[|[name [e|]] l]| | |]; try done; injection H as <-; cbn [f_ctrls f_chan f_fwd f_cons f_rec f_obj];
      rewrite sum_list_with_app; cbn; lia.
  - destruct re as [|l| |]; try done. destruct (last cs) as [c|]; [|done]. destruct (quiet c); [|done]. injection H as <-. cbn; lia.
  - destruct re as [[|]| | |]; try done; injection H as <-. cbn. destruct fw; cbn; lia.
  - destruct (cs !! i) as [c|] eqn:E; [|done]. apply bind_Some in H as (c' & H & E2). injection E2 as <-.
    cbn [f_ctrls f_chan f_fwd f_cons f_rec f_obj].
    pose proof (sum_insert w_ctrl cs i c c' E) as S. enough (w_ctrl c' < w_ctrl c)%nat by lia.
    unfold enter in H. unfold w_ctrl. repeat case_match; simplify_eq/=; lia.
  - destruct (cs !! i) as [c|] eqn:E; [|done]. destruct (n <? chan_size)%nat; [|done].
    apply bind_Some in H as (c' & H & E2). injection E2 as <-.
    cbn [f_ctrls f_chan f_fwd f_cons f_rec f_obj].
    pose proof (sum_insert w_ctrl cs i c c' E) as S. enough (w_ctrl c' + 15 = w_ctrl c)%nat by lia.
    unfold sent in H. unfold w_ctrl. repeat case_match; simplify_eq/=; lia.
  - destruct fw; try done. destruct n; [done|]. injection H as <-. cbn. lia.
  - destruct fw; try done. destruct co; try done. injection H as <-. cbn. lia.
  - destruct co; try done. injection H as <-. cbn. lia.
  - destruct co as [| |u]; try done. apply bind_Some in H as ([o' u'] & H & E2). destruct u' as [u'|]; injection E2 as <-; cbn.
    + apply w_step in H. lia.
    + lia.
  - destruct re as [| |u|]; try done. apply bind_Some in H as ([o' u'] & H & E2). destruct u' as [u'|]; injection E2 as <-; cbn.
    + apply w_step in H. lia.
    + lia.
  - destruct co; try done. injection H as <-. cbn. lia.
  - destruct re; try done. injection H as <-. cbn. lia.
Qed.
Lemma bounded s r s' : frun s r = Some s' -> Forall internal r -> (length r + weight s' <= weight s)%nat.
Proof.
  revert s. induction r as [|a r IH]; intros s H F; [by injection H as <-|].
  apply Forall_cons in F as [Fa F]. cbn [frun] in H. apply bind_Some in H as (s1 & H1 & H2).
  apply weight_step in H1; [|done]. specialize (IH s1 H2 F). cbn. lia.
Qed.

Lemma enter_or_send s i c : f_ctrls s !! i = Some c -> pending c <> 0%nat -> (f_chan s < chan_size)%nat ->
  exists a s', internal a /\ no_failure [a] /\ fstep s a = Some s'.
Proof.
  intros E P L. unfold pending in P. destruct (c_sending c) eqn:E1.
  - exists (ASend i 0). unfold fstep. rewrite E. assert ((f_chan s <? chan_size)%nat = true) as -> by by apply Nat.ltb_lt.
    unfold sent. rewrite E1. cbn. eexists. split_and!; [done|by apply Forall_singleton|done].
  - exists (AEnter i 0). unfold fstep. rewrite E. unfold enter. rewrite E1. destruct (c_waiting c) as [|n]; [lia|]. cbn. eexists. split_and!; [done|by apply Forall_singleton|done].
Qed.
Lemma all_or_one cs : Forall (fun c => c_waiting c = 0%nat /\ c_sending c = false) cs \/
  exists i c, cs !! i = Some c /\ pending c <> 0%nat.
Proof.
  induction cs as [|c cs IH]; [by left|].
  destruct (decide (pending c = 0%nat)) as [E|E].
  - destruct IH as [IH|(i & x & E1 & E2)]; [left|right; by exists (S i), x]. apply Forall_cons. split; [|done].
    unfold pending in E. destruct (c_sending c); [lia|]. split; [lia|done].
  - right. by exists 0%nat, c.
Qed.
Lemma no_failure_1 a : match a with AUpdateFail | AReportFail => False | _ => True end -> no_failure [a].
Proof. intros H. by apply Forall_singleton. Qed.
(** An updater always has an attempt left. *)
Definition u_ok (u : updater) : Prop := match u with UHave _ O => False | _ => True end.
Definition upds_ok (s : flow) : Prop :=
  (forall u, f_cons s = CUpdate u -> u_ok u) /\ (forall u, f_rec s = RUpdate u -> u_ok u).
Lemma upds_ok_hold l o r s : frun (flow_new l o) r = Some s -> upds_ok s.
Proof.
  revert r s. apply (frun_ind _ (fun _ => upds_ok)); [done|].
  intros r s a s' _ [I1 I2] H. destruct s as [cs n fw co re ob]. unfold upds_ok in *. cbn in I1, I2.
  unfold fstep, set_ctrls in H. destruct a; simplify_eq/=; repeat case_match; simplify_eq/=.
  all: repeat match goal with H : (_ ≫= _) = Some _ |- _ => apply bind_Some in H as (? & ? & ?) end; repeat case_match; simplify_eq/=; try naive_solver.
  all: unfold ustep in *; repeat case_match; simplify_eq/=; split; intros; simplify_eq/=; naive_solver.
Qed.
Lemma ustep_next cs o u : u_ok u -> (exists x, ustep cs o u 0 = Some x) \/ exists st v, u = UTry st v 0 /\ v <> o_version o.
Proof.
  intros H. destruct u as [|st n|st v n]; [left; by eexists| |].
  - destruct n; [done|]. left. by eexists.
  - unfold ustep. destruct (Nat.eqb_spec v (o_version o)) as [E|E]; [left; by eexists|].
    destruct n; [right; eauto|left; by eexists].
Qed.
Lemma update_next s u : f_cons s = CUpdate u -> u_ok u -> exhausted s \/ exists a s', internal a /\ no_failure [a] /\ fstep s a = Some s'.
Proof.
  intros E K. destruct (ustep_next (f_ctrls s) (f_obj s) u K) as [([o' u'] & E')|(st & v & -> & N)].
  - right. exists (AUpdate 0). unfold fstep. rewrite E, E'. cbn. eexists. split_and!; [done|by apply no_failure_1|done].
  - left. exists st, v. auto.
Qed.
Lemma report_next s u : f_rec s = RUpdate u -> u_ok u -> exhausted s \/ exists a s', internal a /\ no_failure [a] /\ fstep s a = Some s'.
Proof.
  intros E K. destruct (ustep_next (f_ctrls s) (f_obj s) u K) as [([o' u'] & E')|(st & v & -> & N)].
  - right. exists (AReport 0). unfold fstep. rewrite E, E'. cbn. eexists. split_and!; [done|by apply no_failure_1|done].
  - left. exists st, v. auto.
Qed.
Lemma progress l o r s : frun (flow_new l o) r = Some s -> (broken l <= chan_size)%nat ->
  at_rest s \/ exhausted s \/ exists a s', internal a /\ no_failure [a] /\ fstep s a = Some s'.
Proof.
  intros H B. destruct (phases l o r s H) as (P1 & P2 & _). destruct (fills_hold l o r s H) as [F1 F2].
  destruct (upds_ok_hold l o r s H) as [U1 U2].
  unfold adding in *. destruct (f_rec s) as [l2|l2|u|] eqn:E.
  - right. right. destruct l2 as [|[name [e|]] l2]; [exists AStart|exists AAdd|exists AAdd]; unfold fstep; rewrite E;
      (eexists; split_and!; [done|by apply no_failure_1|done]).
  - right. right. destruct (F2 Logic.I) as (G1 & G2 & G3). unfold newest, todo in G1. rewrite E in G1.
    destruct (last (f_ctrls s)) as [c|] eqn:El.
    2:{ exfalso. apply last_None in El. by apply (G3 l2). }
    destruct (decide (pending c = 0%nat)) as [Z|Z].
    + exists AReturn. unfold fstep. rewrite E, El. unfold quiet. unfold pending in Z.
      destruct (c_sending c); [lia|]. replace (c_waiting c) with 0%nat by lia.
      eexists; split_and!; [done|by apply no_failure_1|done].
    + rewrite last_lookup in El. eapply enter_or_send; [done..|]. lia.
  - right. eapply report_next; eauto.
  - destruct (f_cons s) as [| |u] eqn:Ec.
    + destruct (f_fwd s) eqn:Ef; [tauto| |].
      * destruct (f_chan s) as [|n] eqn:En.
        -- destruct (all_or_one (f_ctrls s)) as [A|(i & c & E1 & E2)].
           ++ left. unfold at_rest. rewrite E, Ef, En, Ec. split_and!; auto.
           ++ right. right. eapply enter_or_send; [done..|]. rewrite En. unfold chan_size. lia.
        -- right. right. exists ATake. unfold fstep. rewrite Ef, En. eexists; split_and!; [done|by apply no_failure_1|done].
      * right. right. exists AHand. unfold fstep. rewrite Ef, Ec. eexists; split_and!; [done|by apply no_failure_1|done].
    + right. right. exists AFree. unfold fstep. rewrite Ec. eexists; split_and!; [done|by apply no_failure_1|done].
    + right. eapply update_next; eauto.
Qed.
