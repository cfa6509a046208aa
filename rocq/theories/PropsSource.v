(** C60: one-shot and periodic sources, and the work queue between sources and reconcilers. *)
From Verif Require Import SourceModel SourceSpec SharedSpec ZSetSpec OpsSpec GatherSpec ExecSpec JsonSpec CleanSpec PipelineSpec GroupSpec ValueSpec ViewSpec.
From Verif Require Import ViewProofs ViewProofs2 SharedProofs SourceProofs PropsView PropsShared.

(** ** One-shot sources *)

Lemma swrites_app l l' : swrites (l ++ l') = swrites l ++ swrites l'.
Proof. unfold swrites. apply omap_app. Qed.
Lemma swrites_ok l : Forall sact_ok l -> Forall op_ok (swrites l).
Proof. induction 1 as [|a l Ha H IH]; [constructor|]. destruct a; try done. change (swrites (SDo o :: l)) with (o :: swrites l). by constructor. Qed.

(** A controller with a one-shot source of a view kind gets one request, whatever happens
    to other kinds, before and after it starts, in this and other operators: the addition
    of its trigger object.  Earlier one-shot sources of the same kind do no harm.  What is
    missing: nobody else may write objects of the kind, and no one-shot source of the kind
    may be prepared later. *)
Theorem C60_oneshot_partial : forall hash lister before mid after p x now,
  lists_all lister -> Forall sact_ok (before ++ mid ++ after) -> gvk_ok x -> is_view_kind x = true ->
  ~ In (SStop p) (before ++ mid) -> only_triggers x before -> unwritten x mid -> unwritten x after ->
  let s := srun hash lister shared0 (before ++ prepare_source now ("OneShot"%string, x) ++ mid) in
  let i := s_handlers s in keeps_op p x i after ->
  requests [] (s_log (srun hash lister s (SListen p x :: after)) i) = [Delta Added (stamp hash (trigger x now))].
Proof.
  intros hash lister before mid after p x now L O G V N B M A s i K. change (prepare_source now ("OneShot"%string, x) ++ mid) with (prepare_oneshot x now :: mid) in s.
  rewrite !Forall_app in O. destruct O as (O1 & O2 & O3).
  assert (Ot : op_ok (VCreate (trigger x now))) by apply trigger_writable.
  assert (O : Forall sact_ok ((before ++ prepare_oneshot x now :: mid) ++ after)) by (rewrite !Forall_app, Forall_cons; by split_and!).
  assert (N' : ~ In (SStop p) (before ++ prepare_oneshot x now :: mid)).
  { rewrite in_app_iff in N |- *. cbn. intros [?|[?|?]]; [tauto|discriminate|tauto]. }
  destruct (C57_order_partial hash lister _ after p x L O V N' K) as (ini & E & ND & I). fold s in E, I. fold i in E. rewrite E.
  apply Forall_app in O as [O _].
  destruct (C57_shared_partial hash lister _ L O p) as [R _]. fold s in R.
  assert (Q : events_on x (cache_run hash lister (s_cache s) (swrites after)).1.2 = []).
  { destruct (same_run hash lister (before ++ prepare_oneshot x now :: mid) shared0 vsys0 inv0 same0) as [Ec _]. fold s in Ec.
    destruct (run_sim hash lister L (dacts (before ++ prepare_oneshot x now :: mid)) (dacts_ok _ O)) as (w & Sw & _). rewrite Ec.
    eapply quiet_run; [done|exact Sw|by apply swrites_ok|done]. }
  rewrite Q, app_nil_r.
  assert (W : forall ns name, plain (ns, name) -> op_get s p x ns name = if decide ((ns, name) = ("", trigger_name)%string) then Some (stamp hash (trigger x now)) else None).
  { intros ns name Hp. rewrite R by done. rewrite swrites_app. change (swrites (prepare_oneshot x now :: mid)) with (VCreate (trigger x now) :: swrites mid). by apply trigger_only. }
  set (m := stamp hash (trigger x now)) in *.
  assert (Im : obj_id m = ("", trigger_name)%string) by (unfold m; by rewrite stamp_id, trigger_id).
  assert (H : forall m', In m' ini <-> m' = m).
  { intros m'. rewrite I. split.
    - intros (_ & Hp & Hg). rewrite W in Hg by done. case_decide; [congruence|done].
    - intros ->. assert (Hp : plain (obj_id m)) by (rewrite Im; by split). split_and!; [|done|].
      + unfold m. by rewrite stamp_gvk, trigger_gvk.
      + rewrite W by done. change (get_namespace m, get_name m) with (obj_id m). by rewrite decide_True. }
  destruct ini as [|a [|b r]].
  - exfalso. by apply (proj2 (H m)).
  - assert (a = m) as -> by (apply H; by left). done.
  - exfalso. assert (a = m) as -> by (apply H; by left). assert (b = m) as -> by (apply H; right; by left). cbn in ND. apply NoDup_cons in ND as [ND _]. apply ND. left.
Qed.
Print Assumptions C60_oneshot_partial.

(** The pipeline of a controller is made for the sources that are not periodic, and only
    its one-shot sources write anything when it is made. *)
Theorem C60_declared : forall now l,
  base_views (map (fun s => (source_type s.1, s.2)) l) = map snd (List.filter (fun s => negb (String.eqb s.1 "Periodic")) l)
  /\ prepare_sources now l = map (fun s => SDo (VCreate (trigger s.2 now))) (List.filter (fun s => String.eqb s.1 "OneShot") l).
Proof.
  intros now l. induction l as [|[t x] l [IH1 IH2]]; [done|]. split.
  - cbn [map List.filter fst snd]. unfold base_views in IH1 |- *. cbn [omap list_omap fst snd]. unfold source_type at 1.
    case_decide as E1; [subst t; cbn; by f_equal|]. case_decide as E2; [subst t; exact IH1|]. destruct (String.eqb_spec t "Periodic"); [done|]. cbn. by f_equal.
  - unfold prepare_sources in IH2 |- *. rewrite bind_cons, IH2. cbn [List.filter fst]. unfold prepare_source, source_type. cbn [fst snd].
    destruct (String.eqb_spec t "OneShot") as [E|E]; [by rewrite decide_True|]. rewrite decide_False by done. by case_decide.
Qed.
Print Assumptions C60_declared.
Example ex_C60_declared : base_views (map (fun s => (source_type s.1, s.2)) [("", v_gvk); ("Periodic", view_gvk "op" "P"); ("OneShot", view_gvk "op" "O")]%string) = [v_gvk; view_gvk "op" "O"]
  /\ length (prepare_sources "t" [("", v_gvk); ("Periodic", view_gvk "op" "P"); ("OneShot", view_gvk "op" "O")]%string) = 1%nat.
Proof. vm_compute. done. Qed.

(** Refuted without the first condition: the source has no predicate, so every object of
    the kind triggers the controller, whoever writes it. *)
Theorem C60_oneshot_others_refuted :
  let s := srun id_hash any_order shared0 [prepare_oneshot v_gvk "t"; SListen 1 v_gvk; SDo (VCreate (view "V" "n" "a" "x"))] in
  map (fun d => (d_type d, get_name (d_obj d))) (requests [] (s_log s 0)) = [(Added, trigger_name); (Added, "a"%string)].
Proof. vm_compute. reflexivity. Qed.
Print Assumptions C60_oneshot_others_refuted.

(** Refuted without the second one: a controller of the same operator with a one-shot source
    of the same kind, or a controller with the same name in a new version of the operator,
    overwrites the trigger, and the first controller is triggered again, by the addition
    of an object that differs from the first one. *)
Theorem C60_oneshot_twice_refuted :
  let s := srun id_hash any_order shared0 [prepare_oneshot v_gvk "t"; SListen 1 v_gvk; prepare_oneshot v_gvk "u"; SListen 2 v_gvk] in
  requests [] (s_log s 0) = [Delta Added (stamp id_hash (trigger v_gvk "t")); Delta Added (stamp id_hash (trigger v_gvk "u"))]
  /\ map d_type (requests [] (s_log s 1)) = [Added].
Proof. split; vm_compute; reflexivity. Qed.
Print Assumptions C60_oneshot_twice_refuted.

Example ex_C60_oneshot :
  let before := [prepare_oneshot v_gvk "s"; SListen 1 v_gvk] in
  let mid := [SDo (VCreate (view "W" "n" "a" "x")); SListen 3 v_gvk] in
  let after := [SDo (VUpdate (view "W" "n" "a" "y")); SStop 1] in
  gvk_ok v_gvk /\ is_view_kind v_gvk = true /\ ~ In (SStop 2) (before ++ mid)
  /\ only_triggers v_gvk before /\ unwritten v_gvk mid /\ unwritten v_gvk after
  /\ keeps_op 2 v_gvk 2 after
  /\ requests [] (s_log (srun id_hash any_order shared0 (before ++ prepare_oneshot v_gvk "t" :: mid ++ SListen 2 v_gvk :: after)) 2)
     = [Delta Added (stamp id_hash (trigger v_gvk "t"))].
Proof.
  split_and!; try (vm_compute; reflexivity).
  - by intros [?|[?|[?|[?|[]]]]].
  - constructor; [right; by exists "s"%string|constructor].
  - by repeat constructor.
  - by repeat constructor.
  - unfold keeps_op. split_and!; by intros [?|[?|[]]].
Qed.

(** ** Periodic sources *)

(** Whenever the period is over, a state-of-the-world reconciliation begins after that and
    ends without an error, before the source, the queue and the worker come to rest, for all
    schedules of the ticker, the goroutine of the source, the worker, its failures and the
    delays of the queue. *)
Theorem C60_ticks : forall before after t, t_run timer0 (before ++ TTick :: after) = Some t -> at_rest t ->
  exists a b c, after = a ++ TStart :: b ++ TEnd true :: c /\ ~ In TStart b /\ forall ok, ~ In (TEnd ok) b.
Proof.
  intros before after t E R. rewrite t_run_app in E. destruct (t_run timer0 before) as [t1|] eqn:E1; [|done]. cbn in E.
  destruct (t_step t1 TTick) as [t2|] eqn:E2; [|done]. cbn in E. assert (I1 := t_run_inv before timer0 t1 q_inv0 E1).
  eapply (due_done (length after) after t2 t); [done|by eapply t_step_inv| |done..]. destruct t1. injection E2 as <-. by left.
Qed.
Print Assumptions C60_ticks.
(** The same after a failure. *)
Theorem C60_failures : forall before after t, t_run timer0 (before ++ TEnd false :: after) = Some t -> at_rest t ->
  exists a b c, after = a ++ TStart :: b ++ TEnd true :: c /\ ~ In TStart b /\ forall ok, ~ In (TEnd ok) b.
Proof.
  intros before after t E R. rewrite t_run_app in E. destruct (t_run timer0 before) as [t1|] eqn:E1; [|done]. cbn [mbind option_bind t_run] in E.
  destruct (t_step t1 (TEnd false)) as [t2|] eqn:E2; [|done]. cbn in E. assert (I1 := t_run_inv before timer0 t1 q_inv0 E1).
  eapply (due_done (length after) after t2 t); [done|by eapply t_step_inv|by eapply failed_due|done..].
Qed.
Print Assumptions C60_failures.
(** There are not more reconciliations than ticks and failures: a slow worker does not make
    requests pile up. *)
Theorem C60_no_more : forall l t, t_run timer0 l = Some t -> (count is_start l <= count is_tick l + count is_failure l)%nat.
Proof. intros l t E. pose proof (owing_run l timer0 t q_inv0 E) as H. change (owing timer0) with 0%nat in H. lia. Qed.
Print Assumptions C60_no_more.
(** No two of them at a time. *)
Theorem C60_one_at_a_time : forall before between t, t_run timer0 (before ++ TStart :: between ++ [TStart]) = Some t -> exists ok, In (TEnd ok) between.
Proof.
  intros before between t E. apply t_run_queue in E. rewrite omap_app in E. cbn [omap list_omap t_qact] in E. rewrite omap_app in E.
  destruct (in_dec (fun x y => decide (x = y)) true (map (fun a => match a with TEnd _ => true | _ => false end) between)) as [H|H].
  - apply in_map_iff in H as (a & Ha & Hin). destruct a; try done. by eexists.
  - exfalso. eapply (q_exclusive _ _ tt); [|exact E]. intros Hd. apply H, in_map_iff. apply elem_of_list_In, elem_of_list_omap in Hd as (a & Ha & Ea).
    exists a. split; [by destruct a|by apply elem_of_list_In].
Qed.
Print Assumptions C60_one_at_a_time.

Example ex_C60_periodic :
  let l := [TTick; TEmit; TStart; TTick; TTick; TEmit; TTick; TEmit; TEnd false; TStart; TEnd true; TRetry; TStart; TEnd true] in
  (exists t, t_run timer0 l = Some t /\ at_rest t) /\ count is_start l = 3%nat /\ count is_tick l = 4%nat.
Proof. split; [|done]. eexists. split; [reflexivity|done]. Qed.

(** The period is the given one. *)
Theorem C60_period_partial : forall parse m s d, mget m "period" = Some (JStr s) -> parse s = Some d -> (0 < d)%Z ->
  period_of parse (Some (JMap m)) = d /\ period_starts (period_of parse (Some (JMap m))) = true.
Proof. intros parse m s d H1 H2 H3. unfold period_of, period_starts. rewrite H1, H2. cbn. split; [done|]. by apply Z.ltb_lt. Qed.
Print Assumptions C60_period_partial.
(** A period that cannot be understood is not reported: the default, five minutes, is used;
    a period of zero is refused only when the controller starts. *)
Theorem C60_period_refuted : forall parse v, match v with JStr s => parse s = None | _ => True end ->
  period_of parse (Some (JMap [("period"%string, v)])) = (5 * 60 * 10 ^ 9)%Z
  /\ forall s, parse s = Some 0%Z -> period_starts (period_of parse (Some (JMap [("period"%string, JStr s)]))) = false.
Proof.
  intros parse v H. assert (G : forall w : json, mget [("period"%string, w)] "period" = Some w) by done. unfold period_of. split.
  - rewrite G. destruct v; try done. by rewrite H.
  - intros s E. rewrite G. by rewrite E.
Qed.
Print Assumptions C60_period_refuted.

(** ** The work queue *)

(** No request is lost: if a request is added, even while an equal one is being processed,
    a worker takes it after that, before the queue is empty and all workers are done. *)
Theorem C60_queue_serves : forall A (H : EqDecision A) before after (a : A) q,
  q_run queue0 (before ++ QAdd a :: after) = Some q -> idle q -> In (QGet a) after.
Proof.
  intros A H before after a q E I. rewrite q_run_app in E. destruct (q_run queue0 before) as [q1|] eqn:E1; [|done]. cbn in E.
  assert (I1 := q_run_inv before queue0 q1 q_inv0 E1). assert (I2 := q_step_inv q1 (QAdd a) _ I1 eq_refl).
  destruct (in_dec (fun x y => decide (x = y)) a (taken after)) as [Hin|Hin].
  - unfold taken in Hin. apply elem_of_list_In, elem_of_list_omap in Hin as (s & Hs & Es). destruct s; try done. injection Es as ->. by apply elem_of_list_In.
  - exfalso. eapply (idle_clean q a); [by eapply q_run_inv|done|]. eapply q_dirty_until; [apply q_add_dirty|exact E|].
    intros Hg. apply Hin. apply elem_of_list_In, elem_of_list_omap. exists (QGet a). split; [by apply elem_of_list_In|done].
Qed.
Print Assumptions C60_queue_serves.
(** No request is taken more often than it was added, and none by two workers at a time. *)
Theorem C60_queue_bounded : forall A (H : EqDecision A) l (a : A) q, q_run queue0 l = Some q -> (times a (taken l) <= times a (added l))%nat.
Proof.
  intros A H l a q E. pose proof (q_count l queue0 q a q_inv0 E) as C. rewrite (decide_False (P := a ∈ q_dirty queue0)) in C by apply not_elem_of_nil. lia.
Qed.
Print Assumptions C60_queue_bounded.
Theorem C60_queue_exclusive : forall A (H : EqDecision A) before between (a : A) q,
  q_run queue0 (before ++ QGet a :: between ++ [QGet a]) = Some q -> In (QDone a) between.
Proof.
  intros A H before between a q E. destruct (in_dec (fun x y => decide (x = y)) a (omap (fun s => match s with QDone b => Some b | _ => None end) between)) as [Hin|Hin].
  - apply elem_of_list_In, elem_of_list_omap in Hin as (s & Hs & Es). destruct s; try done. injection Es as ->. by apply elem_of_list_In.
  - exfalso. eapply q_exclusive; [|exact E]. intros Hd. apply Hin. apply elem_of_list_In, elem_of_list_omap. exists (QDone a). split; [by apply elem_of_list_In|done].
Qed.
Print Assumptions C60_queue_exclusive.
(** Requests with an object differ, as each has its own copy: one worker takes them in
    the order of the events. *)
Theorem C60_queue_order : forall A (H : EqDecision A) l q, NoDup (added l) -> q_run queue0 l = Some q -> added (A := A) l = taken l ++ q_wait q.
Proof. intros A H l q N E. by apply q_fifo. Qed.
Print Assumptions C60_queue_order.

Example ex_C60_queue :
  let l := [QAdd 1; QGet 1; QAdd 1; QAdd 2; QAdd 1; QGet 2; QDone 1; QDone 2; QGet 1; QDone 1]%nat in
  (exists q, q_run queue0 l = Some q /\ idle q) /\ taken l = [1; 2; 1]%nat /\ added l = [1; 1; 2; 1]%nat
  /\ NoDup (added [QAdd 3; QAdd 1; QGet 3; QAdd 2; QDone 3; QGet 1]%nat).
Proof. split_and!; [eexists; split; [reflexivity|done]|done..|]. cbn. repeat constructor; set_solver. Qed.
