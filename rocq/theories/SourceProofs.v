(** Proofs about one-shot and periodic sources and the work queue. *)
From Verif Require Import SourceModel SourceSpec SharedSpec ZSetSpec OpsSpec GatherSpec ExecSpec JsonSpec CleanSpec PipelineSpec GroupSpec ValueSpec ViewSpec.
From Verif Require Import JsonProofs CleanProofs ReconcileProofs ObjProofs ValueProofs GroupProofs ViewProofs ViewProofs2 SharedProofs.

(** ** The queue *)
Section queue.
Context {A : Type} `{EqDecision A}.
Implicit Types (q : queue A) (a b : A).

Lemma in_without a b l : b ∈ without a l <-> b ∈ l /\ b <> a.
Proof. unfold without. rewrite !elem_of_list_In, filter_In, bool_decide_eq_true. done. Qed.

Record q_inv (q : queue A) : Prop := {
  qi_nodup : NoDup (q_wait q);
  qi_wait : forall a, a ∈ q_wait q -> a ∈ q_dirty q /\ a ∉ q_busy q;
  qi_dirty : forall a, a ∈ q_dirty q -> a ∈ q_wait q \/ a ∈ q_busy q }.
Lemma q_inv0 : q_inv queue0.
Proof. split; [constructor|intros a H; by apply elem_of_nil in H..]. Qed.
Lemma q_step_inv q s q' : q_inv q -> q_step q s = Some q' -> q_inv q'.
Proof.
  intros [N W D] E. destruct s as [a|a|a]; cbn in E.
  - injection E as <-. unfold q_add. case_decide as H1; [by split|]. case_decide as H2; split; cbn.
    + done.
    + intros b Hb. destruct (W b Hb). split; [by right|done].
    + intros b Hb. apply elem_of_cons in Hb as [-> |Hb]; [by right|by apply D].
    + apply NoDup_app. split_and!; [done| |apply NoDup_singleton]. intros b Hb Hc. apply elem_of_list_singleton in Hc as ->. by destruct (W a Hb).
    + intros b Hb. apply elem_of_app in Hb as [Hb|Hb]; [destruct (W b Hb); split; [by right|done]|]. apply elem_of_list_singleton in Hb as ->. split; [left|done].
    + intros b Hb. apply elem_of_cons in Hb as [-> |Hb]; [left; apply elem_of_app; right; by apply elem_of_list_singleton|].
      destruct (D b Hb); [left; apply elem_of_app; by left|by right].
  - unfold q_get in E. destruct (q_wait q) as [|b l] eqn:Ew; [done|]. case_decide; [|done]. injection E as <-. subst b. apply NoDup_cons in N as [Na N]. split; cbn.
    + done.
    + intros b Hb. destruct (W b) as [W1 W2]; [by right|]. assert (b <> a) by congruence. split; [by apply in_without|]. intros Hc. apply elem_of_cons in Hc as [?|?]; done.
    + intros b Hb. apply in_without in Hb as [Hb Hn]. destruct (D b Hb) as [Hc|Hc]; [apply elem_of_cons in Hc as [?|?]; [done|by left]|right; by right].
  - case_decide as Hb; [|done]. injection E as <-. unfold q_done. case_decide as Hd; split; cbn.
    + apply NoDup_app. split_and!; [done| |apply NoDup_singleton]. intros b Hw Hc. apply elem_of_list_singleton in Hc as ->. by destruct (W a Hw).
    + intros b Hw. rewrite in_without. apply elem_of_app in Hw as [Hw|Hw]; [destruct (W b Hw); split; [done|tauto]|]. apply elem_of_list_singleton in Hw as ->. split; [done|tauto].
    + intros b Hdb. rewrite in_without, elem_of_app, elem_of_list_singleton. destruct (decide (b = a)) as [-> |]; [tauto|]. destruct (D b Hdb); tauto.
    + done.
    + intros b Hw. rewrite in_without. destruct (W b Hw). split; [done|tauto].
    + intros b Hdb. rewrite in_without. assert (b <> a) by congruence. destruct (D b Hdb); tauto.
Qed.
Lemma q_run_inv l : forall q q', q_inv q -> q_run q l = Some q' -> q_inv q'.
Proof.
  induction l as [|s l IH]; cbn [q_run]; intros q q' I E; [by injection E as <-|].
  destruct (q_step q s) as [q1|] eqn:Es; [|done]. cbn in E. eapply IH; [|done]. by eapply q_step_inv.
Qed.
Lemma q_run_app l l' q : q_run q (l ++ l') = q1 ← q_run q l; q_run q1 l'.
Proof. revert q. induction l as [|s l IH]; intros q; [done|]. cbn [app q_run]. destruct (q_step q s); [apply IH|done]. Qed.

(** A request to be processed stays so until a worker takes it. *)
Lemma q_dirty_until l : forall q q' a, a ∈ q_dirty q -> q_run q l = Some q' -> ~ In (QGet a) l -> a ∈ q_dirty q'.
Proof.
  induction l as [|s l IH]; cbn [q_run]; intros q q' a D E N; [by injection E as <-|].
  destruct (q_step q s) as [q1|] eqn:Es; [|done]. cbn in E. apply (IH q1 q' a); [|done|intros ?; apply N; by right].
  destruct s as [b|b|b]; cbn in Es.
  - injection Es as <-. unfold q_add. case_decide; [done|]. by right.
  - unfold q_get in Es. destruct (q_wait q) as [|c w]; [done|]. case_decide; [|done]. injection Es as <-. subst c. cbn. apply in_without. split; [done|]. intros ->. apply N. by left.
  - case_decide; [|done]. by injection Es as <-.
Qed.
Lemma q_busy_until l : forall q q' a, a ∈ q_busy q -> q_run q l = Some q' -> ~ In (QDone a) l -> a ∈ q_busy q'.
Proof.
  induction l as [|s l IH]; cbn [q_run]; intros q q' a D E N; [by injection E as <-|].
  destruct (q_step q s) as [q1|] eqn:Es; [|done]. cbn in E. apply (IH q1 q' a); [|done|intros ?; apply N; by right].
  destruct s as [b|b|b]; cbn in Es.
  - injection Es as <-. unfold q_add. by case_decide.
  - unfold q_get in Es. destruct (q_wait q) as [|c w]; [done|]. case_decide; [|done]. injection Es as <-. cbn. by right.
  - case_decide; [|done]. injection Es as <-. cbn. apply in_without. split; [done|]. intros ->. apply N. by left.
Qed.
Lemma q_get_free q a q' : q_inv q -> q_step q (QGet a) = Some q' -> a ∉ q_busy q /\ a ∈ q_busy q'.
Proof.
  intros I E. cbn in E. unfold q_get in E. destruct (q_wait q) as [|c w] eqn:Ew; [done|]. case_decide; [|done]. injection E as <-. subst c. split; [|left].
  apply (qi_wait q I). rewrite Ew. left.
Qed.
Lemma q_exclusive before between a q : ~ In (QDone a) between -> q_run queue0 (before ++ QGet a :: between ++ [QGet a]) = Some q -> False.
Proof.
  intros N E. rewrite q_run_app in E. destruct (q_run queue0 before) as [q1|] eqn:E1; [|done]. cbn [mbind option_bind q_run] in E.
  assert (I1 := q_run_inv before queue0 q1 q_inv0 E1). destruct (q_step q1 (QGet a)) as [q2|] eqn:E2; [|done]. cbn [mbind option_bind] in E.
  assert (I2 := q_step_inv _ _ _ I1 E2). rewrite q_run_app in E. destruct (q_run q2 between) as [q3|] eqn:E3; [|done]. cbn [mbind option_bind q_run] in E.
  destruct (q_step q3 (QGet a)) as [q4|] eqn:E4; [|done]. apply (q_get_free q3) in E4; [|by eapply q_run_inv]. apply E4. eapply q_busy_until; [|exact E3|done]. exact (proj2 (q_get_free _ _ _ I1 E2)).
Qed.
Lemma idle_clean q a : q_inv q -> idle q -> a ∉ q_dirty q.
Proof. intros [_ _ D] [W B] H. destruct (D a H) as [H'|H']; [rewrite W in H'|rewrite B in H']; by apply elem_of_nil in H'. Qed.
Lemma q_add_dirty q a : a ∈ q_dirty (q_add q a).
Proof. unfold q_add. case_decide; [done|]. by left. Qed.

Lemma times_cons a b l : times a (b :: l) = ((if decide (b = a) then 1 else 0) + times a l)%nat.
Proof. unfold times. cbn [List.filter]. case_decide; [rewrite bool_decide_true by done|rewrite bool_decide_false by done]; done. Qed.
Lemma q_count l : forall q q' a, q_inv q -> q_run q l = Some q' ->
  (times a (taken l) + (if decide (a ∈ q_dirty q') then 1 else 0) <= times a (added l) + (if decide (a ∈ q_dirty q) then 1 else 0))%nat.
Proof.
  induction l as [|s l IH]; cbn [q_run]; intros q q' a I E; [injection E as <-; done|].
  destruct (q_step q s) as [q1|] eqn:Es; [|done]. cbn in E. specialize (IH q1 q' a (q_step_inv q s q1 I Es) E).
  destruct s as [b|b|b]; cbn in Es.
  - injection Es as <-. change (taken (QAdd b :: l)) with (taken l). change (added (QAdd b :: l)) with (b :: added l). rewrite times_cons.
    unfold q_add in IH. repeat case_decide; subst; cbn in *; try lia; try (exfalso; set_solver).
  - unfold q_get in Es. destruct (q_wait q) as [|c w] eqn:Ew; [done|]. destruct (decide (b = c)); [|done]. injection Es as <-. subst c.
    change (taken (QGet b :: l)) with (b :: taken l). change (added (QGet b :: l)) with (added l). rewrite times_cons. cbn in IH.
    assert (Hb : b ∈ q_dirty q) by (apply (qi_wait q I); rewrite Ew; left).
    assert (a ∈ without b (q_dirty q) <-> a ∈ q_dirty q /\ a <> b) by apply in_without.
    repeat case_decide; subst; try tauto; try lia; exfalso; tauto.
  - destruct (decide (b ∈ q_busy q)); [|done]. by injection Es as <-.
Qed.

(** Requests that differ are taken in the order in which they were added. *)
Lemma q_fifo l : forall q, NoDup (added l) -> q_run queue0 l = Some q ->
  added l = taken l ++ q_wait q /\ (forall a, a ∈ q_dirty q -> a ∈ q_wait q) /\ (forall a, a ∈ q_busy q -> a ∈ taken l).
Proof.
  induction l as [|s l IH] using rev_ind; intros q N E.
  { injection E as <-. split_and!; [done|intros a H; by apply elem_of_nil in H..]. }
  rewrite q_run_app in E. destruct (q_run queue0 l) as [q1|] eqn:E1; [|done]. cbn in E. destruct (q_step q1 s) as [q2|] eqn:Es; [|done]. injection E as <-.
  unfold added, taken in *. rewrite omap_app in N. rewrite !omap_app. apply NoDup_app in N as (N & Nd & _). destruct (IH q1 N eq_refl) as (F & D & B). fold (added l) in *. fold (taken l) in *.
  destruct s as [b|b|b]; cbn in Es |- *; rewrite ?app_nil_r.
  - injection Es as <-. assert (Hb : b ∉ added l) by (intros H; apply (Nd b H); left). rewrite F in Hb. unfold q_add.
    rewrite decide_False by (intros H; apply Hb, elem_of_app; right; by apply D). rewrite decide_False by (intros H; apply Hb, elem_of_app; left; by apply B). cbn.
    split_and!; [by rewrite F, app_assoc| |done]. intros a Ha. rewrite elem_of_app, elem_of_list_singleton. apply elem_of_cons in Ha as [-> |Ha]; [by right|left; by apply D].
  - unfold q_get in Es. destruct (q_wait q1) as [|c w] eqn:Ew; [done|]. destruct (decide (b = c)) as [-> |]; [|done]. injection Es as <-. cbn. split_and!.
    + rewrite <- app_assoc. done.
    + intros a Ha. apply in_without in Ha as [Ha Hn]. apply D in Ha. apply elem_of_cons in Ha as [?|?]; done.
    + intros a Ha. rewrite elem_of_app, elem_of_list_singleton. apply elem_of_cons in Ha as [?|?]; [by right|left; by apply B].
  - destruct (decide (b ∈ q_busy q1)) as [Hb|]; [|done]. injection Es as <-. unfold q_done. cbn.
    assert (Hd : b ∉ q_dirty q1).
    { intros H. apply D in H. rewrite F in N. apply NoDup_app in N as (_ & N & _). apply (N b); [by apply B|done]. }
    rewrite decide_False by done. split_and!; [done..|]. intros a Ha. apply in_without in Ha as [Ha _]. by apply B.
Qed.
End queue.

(** ** The periodic source *)
#[local] Instance tact_eq : EqDecision tact.
Proof. solve_decision. Defined.
Lemma t_run_app l l' t : t_run t (l ++ l') = t1 ← t_run t l; t_run t1 l'.
Proof. revert t. induction l as [|s l IH]; intros t; [done|]. cbn [app t_run]. destruct (t_step t s); [apply IH|done]. Qed.
Lemma t_step_inv t a t' : q_inv (t_queue t) -> t_step t a = Some t' -> q_inv (t_queue t').
Proof.
  intros I E. destruct t as [tick on retry q]. cbn in I. destruct a as [| | | |ok|].
  - by injection E as <-.
  - cbn in E. destruct (tick && on); [|done]. injection E as <-. apply (q_step_inv q (QAdd tt)); done.
  - by injection E as <-.
  - unfold t_step in E. destruct (q_step q (QGet tt)) as [q1|] eqn:Eq; [|done]. injection E as <-. by apply (q_step_inv q (QGet tt)).
  - unfold t_step in E. destruct (q_step q (QDone tt)) as [q1|] eqn:Eq; [|done]. injection E as <-. by apply (q_step_inv q (QDone tt)).
  - cbn in E. destruct retry; [done|]. injection E as <-. apply (q_step_inv q (QAdd tt)); done.
Qed.
Lemma t_run_inv l : forall t t', q_inv (t_queue t) -> t_run t l = Some t' -> q_inv (t_queue t').
Proof.
  induction l as [|a l IH]; cbn [t_run]; intros t t' I E; [by injection E as <-|].
  destruct (t_step t a) as [t1|] eqn:Es; [|done]. cbn in E. eapply IH; [|done]. by eapply t_step_inv.
Qed.

(** What the source and the worker do to the queue. *)
Definition t_qact (a : tact) : option (qact unit) :=
  match a with TEmit | TRetry => Some (QAdd tt) | TStart => Some (QGet tt) | TEnd _ => Some (QDone tt) | _ => None end.
Lemma t_run_queue l : forall t t', t_run t l = Some t' -> q_run (t_queue t) (omap t_qact l) = Some (t_queue t').
Proof.
  induction l as [|a l IH]; cbn [t_run]; intros t t' E; [by injection E as <-|].
  destruct (t_step t a) as [t1|] eqn:Es; [|done]. cbn in E. specialize (IH t1 t' E). destruct t as [tick on retry q]. destruct a as [| | | |ok|].
  - by injection Es as <-.
  - unfold t_step in Es. destruct (tick && on); [|done]. by injection Es as <-.
  - by injection Es as <-.
  - unfold t_step in Es. change (omap t_qact (TStart :: l)) with (QGet tt :: omap t_qact l). cbn [q_run t_queue].
    destruct (q_step q (QGet tt)) as [q1|]; [|done]. by injection Es as <-.
  - unfold t_step in Es. change (omap t_qact (TEnd ok :: l)) with (QDone tt :: omap t_qact l). cbn [q_run t_queue].
    destruct (q_step q (QDone tt)) as [q1|]; [|done]. by injection Es as <-.
  - unfold t_step in Es. destruct retry; [done|]. by injection Es as <-.
Qed.

(** A reconciliation is due. *)
Definition due (t : timer) : Prop := t_tick t = true \/ t_retry t <> 0%nat \/ tt ∈ q_dirty (t_queue t).
Lemma due_until a t t' : due t -> t_step t a = Some t' -> a <> TStart -> due t'.
Proof.
  intros D E N. destruct t as [tick on retry q]. unfold due in *. cbn in D. destruct a as [| | | |ok|]; [| | |done| |].
  - injection E as <-. by left.
  - cbn in E. destruct (tick && on); [|done]. injection E as <-. cbn. right. right. apply q_add_dirty.
  - by injection E as <-.
  - unfold t_step, q_step in E. case_decide; [|done]. injection E as <-. cbn. destruct ok; [tauto|]. right. by left.
  - cbn in E. destruct retry; [done|]. injection E as <-. cbn. right. right. apply q_add_dirty.
Qed.
Lemma rest_not_due t : q_inv (t_queue t) -> at_rest t -> ~ due t.
Proof. intros I (T & R & Q) [D|[D|D]]; [congruence|done|]. by apply (idle_clean _ tt) in Q. Qed.
(** While one is due, the next one begins before everything is at rest. *)
Lemma due_starts l : forall t t', q_inv (t_queue t) -> due t -> t_run t l = Some t' -> at_rest t' ->
  exists a b, l = a ++ TStart :: b /\ exists t1, t_run t (a ++ [TStart]) = Some t1 /\ t_run t1 b = Some t'.
Proof.
  induction l as [|x l IH]; intros t t' I D E R.
  { injection E as <-. by destruct (rest_not_due t I R). }
  cbn [t_run] in E. destruct (t_step t x) as [t1|] eqn:Es; [|done]. cbn in E.
  destruct (decide (x = TStart)) as [-> |Hx].
  - exists [], l. split; [done|]. exists t1. cbn. by rewrite Es.
  - destruct (IH t1 t') as (a & b & -> & t2 & E1 & E2); [by eapply t_step_inv|by eapply due_until|done..|].
    exists (x :: a), b. split; [done|]. exists t2. cbn. by rewrite Es.
Qed.
Lemma start_busy t t' : t_step t TStart = Some t' -> tt ∈ q_busy (t_queue t').
Proof.
  destruct t as [tick on retry q]. unfold t_step, q_step, q_get. destruct (q_wait q) as [|[] w]; [done|]. case_decide; [|done]. intros [= <-]. cbn. left.
Qed.
(** A reconciliation that runs ends before everything is at rest; none begins before. *)
Lemma busy_ends l : forall t t', q_inv (t_queue t) -> tt ∈ q_busy (t_queue t) -> t_run t l = Some t' -> at_rest t' ->
  exists a ok b, l = a ++ TEnd ok :: b /\ ~ In TStart a /\ (forall o, ~ In (TEnd o) a) /\ exists t1, t_run t (a ++ [TEnd ok]) = Some t1 /\ t_run t1 b = Some t'.
Proof.
  induction l as [|x l IH]; intros t t' I B E R.
  { injection E as <-. destruct R as (_ & _ & _ & R). rewrite R in B. by apply elem_of_nil in B. }
  cbn [t_run] in E. destruct (t_step t x) as [t1|] eqn:Es; [|done]. cbn in E.
  destruct x as [| | | |ok|].
  5: { exists [], ok, l. split_and!; [done|by intros []|by intros ? []|]. exists t1. cbn [app t_run]. by rewrite Es. }
  4: { exfalso. destruct t as [tick on retry q]. unfold t_step, q_step, q_get in Es. cbn in B, I. destruct (q_wait q) as [|[] w] eqn:Ew; [done|].
       apply (qi_wait q I tt); [rewrite Ew; left|done]. }
  all: assert (B1 : tt ∈ q_busy (t_queue t1)).
  1: { destruct t as [tick on retry q]. by injection Es as <-. }
  2: { destruct t as [tick on retry q]. unfold t_step in Es. destruct (tick && on); [|done]. injection Es as <-. cbn. unfold q_add. by case_decide. }
  3: { destruct t as [tick on retry q]. by injection Es as <-. }
  4: { destruct t as [tick on retry q]. unfold t_step in Es. destruct retry; [done|]. injection Es as <-. cbn. unfold q_add. by case_decide. }
  all: destruct (IH t1 t' (t_step_inv _ _ _ I Es) B1 E R) as (a & ok & b & -> & N1 & N2 & t2 & E1 & E2).
  all: eexists (_ :: a), ok, b; split_and!; [done|by intros [?|?]|intros o [?|?]; [done|by eapply N2]|].
  all: exists t2; cbn [app t_run]; by rewrite Es.
Qed.
Lemma failed_due t t' : t_step t (TEnd false) = Some t' -> due t'.
Proof. destruct t as [tick on retry q]. unfold t_step. destruct (q_step q (QDone tt)); [|done]. intros [= <-]. right. by left. Qed.
Lemma t_run_last t l a t' : t_run t (l ++ [a]) = Some t' -> exists t1, t_run t l = Some t1 /\ t_step t1 a = Some t'.
Proof. rewrite t_run_app. destruct (t_run t l) as [t1|]; [|done]. cbn. destruct (t_step t1 a) eqn:E; [|done]. intros [= <-]. eauto. Qed.
(** What is due is done, successfully. *)
Lemma due_done n : forall l t t', (length l <= n)%nat -> q_inv (t_queue t) -> due t -> t_run t l = Some t' -> at_rest t' ->
  exists a b c, l = a ++ TStart :: b ++ TEnd true :: c /\ ~ In TStart b /\ (forall o, ~ In (TEnd o) b).
Proof.
  induction n as [|n IH]; intros l t t' L I D E R.
  { destruct l; [|cbn in L; lia]. injection E as <-. by destruct (rest_not_due t I R). }
  destruct (due_starts l t t' I D E R) as (a & b & -> & t1 & E1 & E2).
  assert (I1 : q_inv (t_queue t1)) by (by eapply t_run_inv). apply t_run_last in E1 as (t0 & E0 & E1).
  destruct (busy_ends b t1 t' I1 (start_busy _ _ E1) E2 R) as (b1 & ok & b2 & -> & N1 & N2 & t2 & E3 & E4).
  destruct ok.
  - exists a, b1, b2. by split_and!.
  - assert (I2 : q_inv (t_queue t2)) by (by eapply t_run_inv). apply t_run_last in E3 as (t3 & E3 & E5).
    destruct (IH b2 t2 t') as (a' & b' & c & -> & M1 & M2); [|done|by eapply failed_due|done..|].
    { rewrite app_length in L. cbn in L. rewrite app_length in L. cbn in L. lia. }
    exists (a ++ TStart :: b1 ++ TEnd false :: a'), b', c. split_and!; [|done..]. by rewrite <- !app_assoc; cbn; rewrite <- !app_assoc.
Qed.

(** Reconciliations are not more than ticks and failures. *)
Definition owing (t : timer) : nat := (if t_tick t then 1 else 0) + t_retry t + (if decide (tt ∈ q_dirty (t_queue t)) then 1 else 0).
Lemma owing_step t a t' : q_inv (t_queue t) -> t_step t a = Some t' ->
  ((if is_start a then 1 else 0) + owing t' <= (if is_tick a then 1 else 0) + (if is_failure a then 1 else 0) + owing t)%nat.
Proof.
  intros I E. destruct t as [tick on retry q]. unfold owing. cbn [t_tick t_retry t_queue]. cbn in I. destruct a as [| | | |ok|]; unfold t_step in E.
  - injection E as <-. cbn. destruct tick; lia.
  - destruct tick, on; cbn in E; try done. injection E as <-. cbn. repeat case_decide; lia.
  - injection E as <-. cbn. lia.
  - unfold q_step, q_get in E. destruct (q_wait q) as [|[] w] eqn:Ew; [done|]. rewrite decide_True in E by done. injection E as <-. cbn.
    assert (tt ∈ q_dirty q) by (apply (qi_wait q I); rewrite Ew; left).
    rewrite (decide_False (P := tt ∈ without tt (q_dirty q))) by (rewrite in_without; tauto). rewrite decide_True by done. lia.
  - unfold q_step in E. destruct (decide (tt ∈ q_busy q)); [|done]. injection E as <-. cbn. destruct ok; lia.
  - destruct retry; [done|]. injection E as <-. cbn. repeat case_decide; lia.
Qed.
Lemma owing_run l : forall t t', q_inv (t_queue t) -> t_run t l = Some t' ->
  (count is_start l + owing t' <= count is_tick l + count is_failure l + owing t)%nat.
Proof.
  induction l as [|a l IH]; cbn [t_run]; intros t t' I E; [injection E as <-; cbn; lia|].
  destruct (t_step t a) as [t1|] eqn:Es; [|done]. cbn in E. specialize (IH t1 t' (t_step_inv t a t1 I Es) E).
  pose proof (owing_step t a t1 I Es). unfold count in *. cbn [List.filter]. destruct (is_start a), (is_tick a), (is_failure a); cbn [length] in *; lia.
Qed.

(** ** The one-shot source *)
Section oneshot.
Variable hash : string -> string.
Variable lister : store -> list jobj.
Hypothesis LA : lists_all lister.

Lemma cl_update_kind c m : Forall (fun e => e.1 = get_gvk m) (cl_update hash c m).1.2.
Proof.
  unfold cl_update. destruct (current c m); [|constructor]. destruct (obj_equal _ _); [constructor|]. unfold vc_update. rewrite stamp_gvk.
  destruct (is_view_kind _); [|constructor]. destruct (obj_equal _ _); [constructor|]. repeat constructor.
Qed.
Lemma set_sub_kind c w sub m v old : sim hash c w -> own_kind (get_gvk m) -> plain (obj_id m) -> sub_name sub -> current c m = Some old ->
  Forall (fun e => e.1 = get_gvk m) (cl_update hash c (mset old sub v)).1.2.
Proof.
  intros H K P (S1 & S2 & S3) Ho. rewrite (current_sim hash c w) in Ho by done. destruct (sim_stored hash c w m old H Ho) as (k & Hs & Hid).
  apply source_inj in Hid as [Hid _]. rewrite <- Hid.
  assert (E : get_gvk (mset old sub v) = get_gvk old).
  { unfold get_gvk, get_api_version, get_kind, nested_str. cbn [nested_get]. by rewrite !mget_set_ne by congruence. }
  rewrite <- E. apply cl_update_kind.
Qed.
Lemma delete_items_kind x l : forall c, (forall m, In m l -> get_gvk m = x) -> Forall (fun e => e.1 = x) (delete_items c l).1.2.
Proof.
  induction l as [|m l IH]; intros c H; [constructor|]. cbn [delete_items]. assert (Hm := H m (or_introl eq_refl)).
  assert (D : Forall (fun e => e.1 = x) (vc_delete c m).1.2).
  { unfold vc_delete. rewrite Hm. destruct (is_view_kind _); [|constructor]. destruct (_ !! _); repeat constructor. }
  destruct (vc_delete c m) as [[c1 es] r]. destruct r; [|done..]. specialize (IH c1 (fun m' H' => H m' (or_intror H'))).
  destruct (delete_items c1 l) as [[c2 es'] r']. cbn [fst snd] in *. by apply Forall_app.
Qed.
(** The events of a write are on the kind that it is about. *)
Lemma vstep_kind c w o : sim hash c w -> op_ok o -> Forall (fun e => e.1 = op_gvk o) (vstep hash lister c o).1.2.
Proof.
  intros H O. destruct o as [m|m|m p|m|m sel|sub m|sub m s]; cbn [vstep op_gvk].
  - unfold vc_add. destruct (is_view_kind _); [by repeat constructor|constructor].
  - apply cl_update_kind.
  - destruct O as (Hp & K & Wp & Np & Kp). unfold cl_patch. rewrite (current_sim hash c w) by done.
    destruct (w !! source_id m) as [old|] eqn:Ho; [|constructor]. destruct (sim_stored hash c w m old H Ho) as (k & Hs & Hid).
    unfold patch_object. destruct (patch (JMap old) (JMap p)) as [| | | | | |new] eqn:E; try constructor.
    destruct Hs. assert (Hi := patch_identity old p new so_owf Wp Kp E). rewrite Hid in Hi. apply source_inj in Hi as [Hi _].
    unfold vc_update. rewrite stamp_gvk, Hi. destruct (is_view_kind _); [|constructor]. destruct (obj_equal _ _); [constructor|]. repeat constructor.
  - unfold vc_delete. destruct (is_view_kind _); [|constructor]. destruct (_ !! _); by repeat constructor.
  - destruct O as [K L]. unfold cl_delete_all. rewrite own_current by done. apply delete_items_kind. intros m' Hm.
    assert (Ek : has_suffix "List" (gvk_kind (get_gvk m)) = false).
    { assert (F := f_equal gvk_kind (own_current m K)). cbn [view_gvk gvk_kind] in F. by rewrite <- F. }
    rewrite (vc_list_in hash lister LA c w) in Hm by done. rewrite object_list_gvk in Hm by done. tauto.
  - destruct O as ((W & N & Hp) & K & Sn). unfold cl_sub_update. destruct (current c m) as [old|] eqn:Ho; [|constructor].
    destruct (mget m sub) as [[| | | | | |v]|]; try constructor.
    destruct (match mget old sub with Some (JMap w0) => go_equal (JMap w0) (JMap v) | _ => false end); [constructor|by eapply set_sub_kind].
  - destruct O as (Hp & K & Ws & Ns & Sn). unfold cl_sub_create. destruct (mget s sub) as [[| | | | | |v]|]; try constructor.
    destruct (current c m) as [old|] eqn:Ho; [|constructor]. by eapply set_sub_kind.
Qed.
Lemma events_on_none x es : Forall (fun e => e.1 <> x) es -> events_on x es = [].
Proof. unfold events_on. induction 1 as [|[y e] es H F IH]; [done|]. cbn [List.filter fst]. by rewrite bool_decide_false. Qed.
Lemma quiet_run x os : forall c w, sim hash c w -> Forall op_ok os -> Forall (fun o => op_gvk o <> x) os ->
  events_on x (cache_run hash lister c os).1.2 = [].
Proof.
  induction os as [|o os IH]; intros c w H Ho F; [done|]. apply Forall_cons in Ho as [O1 O2], F as [F1 F2]. cbn [cache_run].
  assert (K := vstep_kind c w o H O1). destruct (vstep_sim hash lister LA c w o H O1) as (S1 & _ & _).
  destruct (vstep hash lister c o) as [[c1 es] r]. cbn [fst snd] in *. specialize (IH c1 _ S1 O2 F2). destruct (cache_run hash lister c1 os) as [[c2 es'] rs].
  cbn [fst snd] in *. rewrite events_on_app, IH, app_nil_r. apply events_on_none. eapply Forall_impl; [exact K|]. cbn. intros e ->. done.
Qed.

(** The objects of a kind change only by writes on the kind. *)
Lemma ideal_other w o x : op_gvk o <> x -> forall i, (ideal_step hash w o).1 !! (x, i) = w !! (x, i).
Proof.
  intros N i. assert (L : forall m (v : jobj), get_gvk m <> x -> <[source_id m := v]> w !! (x, i) = w !! (x, i)).
  { intros m v Hm. apply lookup_insert_ne. unfold source_id. congruence. }
  destruct o as [m|m|m p|m|m sel|sub m|sub m s]; cbn [op_gvk] in N; cbn [ideal_step].
  - destruct (is_view_kind _); cbn; auto.
  - destruct (w !! source_id m); cbn; auto.
  - destruct (w !! source_id m) as [old|]; [|done]. destruct (patch _ _); cbn; auto.
  - destruct (is_view_kind _); [|done]. destruct (w !! source_id m); [|done]. cbn. apply lookup_delete_ne. unfold source_id. intros [= E _]. by apply N.
  - cbn. destruct (w !! (x, i)) as [v|] eqn:E.
    + apply map_filter_lookup_Some. split; [done|]. cbn. intros [E1 _]. apply N. by symmetry.
    + apply map_filter_lookup_None. by left.
  - destruct (w !! source_id m) as [old|]; [|done]. destruct (mget m sub) as [[]|]; cbn; auto.
  - destruct (mget s sub) as [[]|]; try done. destruct (w !! source_id m) as [old|]; cbn; auto.
Qed.
Lemma ideal_quiet x os : forall w, Forall (fun o => op_gvk o <> x) os -> forall i, (ideal_run hash w os).1 !! (x, i) = w !! (x, i).
Proof.
  induction os as [|o os IH]; intros w F i; [done|]. apply Forall_cons in F as [F1 F2]. cbn [ideal_run].
  assert (E := ideal_other w o x F1 i). destruct (ideal_step hash w o) as [w1 r]. cbn in E. specialize (IH w1 F2 i). destruct (ideal_run hash w1 os) as [w2 rs]. cbn in *. congruence.
Qed.

(** The trigger *)
Lemma trigger_eq x now : trigger x now
  = [("apiVersion"%string, JStr (gv_string (gvk_group x) (gvk_version x))); ("kind"%string, JStr (gvk_kind x));
     ("metadata"%string, JMap [("labels"%string, JMap [(triggered_label, JStr now)]); ("name"%string, JStr trigger_name)])].
Proof. reflexivity. Qed.
Lemma trigger_gvk x now : gvk_ok x -> get_gvk (trigger x now) = x.
Proof. intros G. apply gvk_is_get; [done|]. rewrite trigger_eq. by split. Qed.
Lemma trigger_id x now : obj_id (trigger x now) = ("", trigger_name)%string.
Proof. by rewrite trigger_eq. Qed.
Lemma trigger_writable x now : writable (trigger x now).
Proof.
  rewrite trigger_eq. split_and!.
  - repeat (constructor || split). 
  - repeat constructor.
  - by split.
Qed.
Lemma ideal_app w os os' : (ideal_run hash w (os ++ os')).1 = (ideal_run hash (ideal_run hash w os).1 os').1.
Proof.
  revert w. induction os as [|o os IH]; intros w; [done|]. cbn [app ideal_run]. destruct (ideal_step hash w o) as [w1 r]. specialize (IH w1).
  destruct (ideal_run hash w1 (os ++ os')), (ideal_run hash w1 os). done.
Qed.
Lemma ideal_triggers x os : forall w, gvk_ok x -> Forall (fun o => op_gvk o <> x \/ exists t, o = VCreate (trigger x t)) os ->
  forall i, i <> ("", trigger_name)%string -> (ideal_run hash w os).1 !! (x, i) = w !! (x, i).
Proof.
  induction os as [|o os IH]; intros w G F i N; [done|]. apply Forall_cons in F as [F1 F2]. cbn [ideal_run].
  assert (E : (ideal_step hash w o).1 !! (x, i) = w !! (x, i)).
  { destruct F1 as [F1|[t ->]]; [by apply ideal_other|]. cbn [ideal_step]. destruct (is_view_kind _); [|done]. cbn [fst].
    apply lookup_insert_ne. unfold source_id. rewrite trigger_id. congruence. }
  destruct (ideal_step hash w o) as [w1 r]. cbn in E. specialize (IH w1 G F2 i N). destruct (ideal_run hash w1 os). cbn in *. congruence.
Qed.
(** After one-shot sources have been prepared and nothing else was written, the last
    trigger is the only object of the kind. *)
Lemma trigger_only x now before mid : gvk_ok x -> is_view_kind x = true ->
  Forall (fun o => op_gvk o <> x \/ exists t, o = VCreate (trigger x t)) before -> Forall (fun o => op_gvk o <> x) mid ->
  forall i, (ideal_run hash ∅ (before ++ VCreate (trigger x now) :: mid)).1 !! (x, i)
  = if decide (i = ("", trigger_name)%string) then Some (stamp hash (trigger x now)) else None.
Proof.
  intros G V F M i. rewrite ideal_app. change (VCreate (trigger x now) :: mid) with ([VCreate (trigger x now)] ++ mid). rewrite ideal_app, ideal_quiet by done.
  cbn [ideal_run ideal_step]. rewrite trigger_gvk, V by done. cbn [fst]. assert (S : source_id (trigger x now) = (x, ("", trigger_name)%string)).
  { unfold source_id. by rewrite trigger_gvk, trigger_id. }
  rewrite S. case_decide as E; [subst; apply lookup_insert|]. rewrite lookup_insert_ne by congruence. rewrite ideal_triggers by done. apply lookup_empty.
Qed.
End oneshot.
