(** Property C57: operators that share the view cache. *)
From Verif Require Import SharedModel ZSetSpec OpsSpec GatherSpec ExecSpec JsonSpec CleanSpec PipelineSpec GroupSpec ValueSpec ViewSpec SharedSpec.
From Verif Require Import JsonProofs CleanProofs ReconcileProofs ObjProofs ValueProofs GroupProofs ViewProofs ViewProofs2 SharedProofs.
From Verif Require Import PropsView.

Lemma dacts_writes l : writes (dacts l) = swrites l.
Proof. induction l as [|a l IH]; [done|]. rewrite dacts_cons. destruct a; try done. change (o :: writes (dacts l) = o :: swrites l). by rewrite IH. Qed.
Lemma dacts_ok l : Forall sact_ok l -> Forall act_ok (dacts l).
Proof. induction 1 as [|a l Ha H IH]; [constructor|]. rewrite dacts_cons. destruct a; try done; by constructor. Qed.
Lemma dacts_app l l' : dacts (l ++ l') = dacts l ++ dacts l'.
Proof. induction l as [|a l IH]; [done|]. cbn [app]. rewrite !dacts_cons, IH. by destruct (direct a). Qed.
Lemma dacts_stay l i : ~ In (Leave i) (dacts l).
Proof. induction l as [|a l IH]; [by intros []|]. rewrite dacts_cons. destruct a; try done; (intros [?|?]; [discriminate|by apply IH]). Qed.
Lemma sound0 p : sound_op p shared0.
Proof. intros x j H. cbn in H. by rewrite lookup_empty in H. Qed.
Lemma same0 : same_base shared0 vsys0.
Proof. done. Qed.

(** ** C57 *)

(** Whatever operators subscribe, unsubscribe and stop: every operator reads the
    result of all writes of all operators, the same one. *)
Theorem C57_shared_partial : forall hash lister l, lists_all lister -> Forall sact_ok l ->
  let s := srun hash lister shared0 l in
  let w := (ideal_run hash ∅ (swrites l)).1 in
  forall p,
  (forall x ns name, is_view_kind x = true -> plain (ns, name) -> op_get s p x ns name = w !! (x, (ns, name)))
  /\ (forall x sel, is_object_kind x = true -> exists ms, op_list lister s p (list_gvk x) sel = Some ms /\ NoDup (map obj_id ms)
       /\ forall m, In m ms <-> get_gvk m = x /\ w !! source_id m = Some m /\ selects sel m = true).
Proof.
  intros hash lister l Hl Ho s w p. destruct (same_run hash lister l shared0 vsys0 inv0 same0) as [E _]. fold s in E.
  destruct (run_sim hash lister Hl (dacts l) (dacts_ok l Ho)) as (w' & Hs & Ew). rewrite dacts_writes in Ew. fold w in Ew. subst w'. rewrite <- E in Hs. split.
  - intros x ns name V Hp. unfold op_get. rewrite V. by eapply vc_get_sim.
  - intros x sel V. assert (Ex : object_gvk (list_gvk x) = x). { apply object_list_gvk. unfold is_object_kind in V. apply andb_true_iff in V as [_ V]. by destruct (has_suffix _ _). }
    exists (vc_list lister (s_cache s) (list_gvk x) sel). split_and!.
    + unfold op_list. rewrite Ex. unfold is_object_kind in V. apply andb_true_iff in V as [V _]. by rewrite V.
    + eapply vc_list_ids; done.
    + intros m. rewrite (vc_list_in hash lister Hl _ _ _ _ _ Hs), Ex. naive_solver.
Qed.
Print Assumptions C57_shared_partial.

(** A subscription of an operator, made at any time before the operator is stopped
    and kept since, gets what the only subscriber of a private cache would get;
    what other operators do with their subscriptions does not matter. *)
Theorem C57_as_alone : forall hash lister before after p x, is_view_kind x = true -> ~ In (SStop p) before ->
  let s := srun hash lister shared0 before in
  let i := s_handlers s in keeps_op p x i after ->
  s_log (srun hash lister s (SListen p x :: after)) i
  = vs_log (vact_run hash lister vsys0 (dacts before ++ Listen x :: dacts after)) i.
Proof.
  intros hash lister before after p x V N s i K. pose proof (run_inv hash lister shared0 before inv0) as I. fold s in I.
  pose proof (same_run hash lister before shared0 vsys0 inv0 same0) as B. fold s in B. set (v := vact_run hash lister vsys0 (dacts before)) in *.
  destruct (listen_held hash lister p s v x I B (sound_run hash lister p before shared0 inv0 (sound0 p) N) V) as (H1 & H2 & H3).
  unfold vact_run at 1. rewrite foldl_app. fold (vact_run hash lister vsys0 (dacts before)). fold v. cbn [foldl].
  destruct (same_log_op hash lister p x i after (sstep hash lister s (SListen p x)) (vact_step hash lister v (Listen x))) as [E _]; try done.
  - by apply step_inv.
  - exact (same_step hash lister s v (SListen p x) I B).
Qed.
Print Assumptions C57_as_alone.

(** Hence its events amount to the objects of the kind that the operator reads, ... *)
Theorem C57_delivered_partial : forall hash lister before after p x, lists_all lister -> Forall sact_ok (before ++ after) -> is_view_kind x = true -> ~ In (SStop p) before ->
  let s := srun hash lister shared0 before in
  let i := s_handlers s in keeps_op p x i after ->
  let s' := srun hash lister s (SListen p x :: after) in
  forall ns name, plain (ns, name) -> replayed (s_log s' i) (ns, name) = op_get s' p x ns name.
Proof.
  intros hash lister before after p x Hl Ho V N s i K s' ns name Hp. unfold s', i, s. rewrite (C57_as_alone hash lister before after p x V N K).
  pose proof (same_run hash lister before shared0 vsys0 inv0 same0) as [B1 B2].
  assert (Ok : Forall act_ok (dacts before ++ dacts after)) by (rewrite <- dacts_app; by apply dacts_ok).
  pose proof (C30_replay_partial hash lister (dacts before) (dacts after) x Hl Ok V (dacts_stay after _) ns name Hp) as R.
  unfold vact_run at 1. rewrite foldl_app. fold (vact_run hash lister vsys0 (dacts before)). fold (vact_run hash lister (vact_run hash lister vsys0 (dacts before)) (Listen x :: dacts after)).
  rewrite B2, R. unfold op_get. rewrite V. f_equal.
  change (srun hash lister (srun hash lister shared0 before) (SListen p x :: after)) with (srun hash lister (srun hash lister shared0 before) (SListen p x :: after)).
  pose proof (same_run hash lister (SListen p x :: after) _ _ (run_inv hash lister shared0 before inv0) (same_run hash lister before shared0 vsys0 inv0 same0)) as [E _]. by rewrite E.
Qed.
Print Assumptions C57_delivered_partial.

(** ... and come in the order of the writes of all operators, after the objects that
    were there. *)
Theorem C57_order_partial : forall hash lister before after p x, lists_all lister -> Forall sact_ok (before ++ after) -> is_view_kind x = true -> ~ In (SStop p) before ->
  let s := srun hash lister shared0 before in
  let i := s_handlers s in keeps_op p x i after ->
  exists initial, s_log (srun hash lister s (SListen p x :: after)) i
    = map WCreate initial ++ events_on x (cache_run hash lister (s_cache s) (swrites after)).1.2
  /\ NoDup (map obj_id initial)
  /\ forall m, In m initial <-> get_gvk m = x /\ plain (obj_id m) /\ op_get s p x (get_namespace m) (get_name m) = Some m.
Proof.
  intros hash lister before after p x Hl Ho V N s i K. unfold i, s. rewrite (C57_as_alone hash lister before after p x V N K). fold s.
  pose proof (same_run hash lister before shared0 vsys0 inv0 same0) as [B1 B2]. fold s in B1, B2.
  assert (Ok : Forall act_ok (dacts before ++ dacts after)) by (rewrite <- dacts_app; by apply dacts_ok).
  destruct (C30_order_partial hash lister (dacts before) (dacts after) x Hl Ok V (dacts_stay after _)) as (initial & E & H1 & H2). exists initial.
  unfold vact_run at 1. rewrite foldl_app. fold (vact_run hash lister vsys0 (dacts before)). fold (vact_run hash lister (vact_run hash lister vsys0 (dacts before)) (Listen x :: dacts after)).
  rewrite B2, E, B1, dacts_writes. split; [done|]. split; [done|]. intros m. rewrite (H2 m). unfold op_get. by rewrite V, B1.
Qed.
Print Assumptions C57_order_partial.

(** The same for subscriptions at the storage itself, as watches make them; stopping
    operators does not touch them. *)
Theorem C57_storage_partial : forall hash lister before after x, lists_all lister -> Forall sact_ok (before ++ after) -> is_view_kind x = true ->
  let s := srun hash lister shared0 before in
  let i := s_handlers s in keeps_own x i after ->
  let s' := srun hash lister s (SWatch x :: after) in
  forall ns name, plain (ns, name) -> replayed (s_log s' i) (ns, name) = vc_get (s_cache s') x ns name.
Proof.
  intros hash lister before after x Hl Ho V s i K s' ns name Hp. pose proof (run_inv hash lister shared0 before inv0) as I. fold s in I.
  pose proof (same_run hash lister before shared0 vsys0 inv0 same0) as B. fold s in B. set (v := vact_run hash lister vsys0 (dacts before)) in *.
  destruct (watch_held hash lister s v x I B V) as (H1 & H2 & H3).
  pose proof (same_step hash lister s v (SWatch x) I B) as B'. cbn [direct] in B'. pose proof (step_inv hash lister s (SWatch x) I) as I'.
  pose proof (same_log_own hash lister x i after (sstep hash lister s (SWatch x)) (vact_step hash lister v (Listen x)) I' B' H1 H2 H3 K) as E.
  change (s_log s' i = vs_log (vact_run hash lister v (Listen x :: dacts after)) i) in E. rewrite E.
  assert (Ok : Forall act_ok (dacts before ++ dacts after)) by (rewrite <- dacts_app; by apply dacts_ok).
  pose proof (C30_replay_partial hash lister (dacts before) (dacts after) x Hl Ok V (dacts_stay after _) ns name Hp) as R. fold v in R.
  destruct B as [B1 B2]. unfold i. rewrite B2, R. f_equal.
  destruct (same_run hash lister (SWatch x :: after) s v I (conj B1 B2)) as [Ec _]. symmetry. exact Ec.
Qed.
Print Assumptions C57_storage_partial.

(** Operators do not disturb each other: what a subscription gets depends on the
    writes only, not on who else subscribes, unsubscribes or stops. *)
Theorem C57_isolated_partial : forall hash lister before after after' p x, lists_all lister -> Forall sact_ok (before ++ after) -> Forall sact_ok (before ++ after') ->
  is_view_kind x = true -> ~ In (SStop p) before ->
  let s := srun hash lister shared0 before in
  let i := s_handlers s in keeps_op p x i after -> keeps_op p x i after' -> swrites after = swrites after' ->
  s_log (srun hash lister s (SListen p x :: after)) i = s_log (srun hash lister s (SListen p x :: after')) i.
Proof.
  intros hash lister before after after' p x Hl Ho Ho' V N s i K K' W.
  pose proof (same_run hash lister before shared0 vsys0 inv0 same0) as [B1 B2].
  assert (G : forall l, Forall sact_ok (before ++ l) -> keeps_op p x i l ->
    s_log (srun hash lister s (SListen p x :: l)) i = map WCreate (lister (cache_of (s_cache s) x)) ++ events_on x (cache_run hash lister (s_cache s) (swrites l)).1.2).
  { intros l Hol Kl. unfold i, s. rewrite (C57_as_alone hash lister before l p x V N Kl).
    assert (Ok : Forall act_ok (dacts before ++ dacts l)) by (rewrite <- dacts_app; by apply dacts_ok).
    destruct (listen_log hash lister Hl (dacts before) (dacts l) x Ok V (dacts_stay l _)) as [E _].
    unfold vact_run at 1. rewrite foldl_app. fold (vact_run hash lister vsys0 (dacts before)). fold (vact_run hash lister (vact_run hash lister vsys0 (dacts before)) (Listen x :: dacts l)).
    by rewrite B2, E, B1, dacts_writes. }
  by rewrite (G after Ho K), (G after' Ho' K'), W.
Qed.
Print Assumptions C57_isolated_partial.

(** When the operator is stopped, or unsubscribes in any way, nothing more arrives. *)
Theorem C57_silent : forall hash lister before kept rest p x a, is_view_kind x = true -> ~ In (SStop p) before ->
  let s := srun hash lister shared0 before in
  let i := s_handlers s in keeps_op p x i kept ->
  a = SStop p \/ a = SRemove p x \/ a = SLeave i ->
  s_log (srun hash lister s (SListen p x :: kept ++ a :: rest)) i = s_log (srun hash lister s (SListen p x :: kept)) i.
Proof.
  intros hash lister before kept rest p x a V N s i K Ha. pose proof (run_inv hash lister shared0 before inv0) as I. fold s in I.
  pose proof (same_run hash lister before shared0 vsys0 inv0 same0) as B. fold s in B. set (v := vact_run hash lister vsys0 (dacts before)) in *.
  destruct (listen_held hash lister p s v x I B (sound_run hash lister p before shared0 inv0 (sound0 p) N) V) as (H1 & H2 & H3).
  destruct (same_log_op hash lister p x i kept (sstep hash lister s (SListen p x)) (vact_step hash lister v (Listen x))) as [_ H]; try done.
  { by apply step_inv. } { exact (same_step hash lister s v (SListen p x) I B). }
  change (srun hash lister s (SListen p x :: kept)) with (srun hash lister (sstep hash lister s (SListen p x)) kept).
  change (srun hash lister s (SListen p x :: kept ++ a :: rest)) with (srun hash lister (sstep hash lister s (SListen p x)) (kept ++ a :: rest)).
  set (t := srun hash lister (sstep hash lister s (SListen p x)) kept) in *.
  assert (It : inv t) by (apply run_inv; by apply step_inv).
  unfold srun at 1. rewrite foldl_app. fold (srun hash lister (sstep hash lister s (SListen p x)) kept). fold t. cbn [foldl].
  destruct (ends_cut hash lister t p x i a It H Ha) as [E C]. fold (srun hash lister (sstep hash lister t a) rest). rewrite (cut_run hash lister _ rest i (step_inv hash lister t a It) C). done.
Qed.
Print Assumptions C57_silent.

(** Refuted after the operator was stopped: a new subscription through its cache lists
    the objects but never hears of a change. *)
Theorem C57_stopped_refuted : let s := srun id_hash any_order shared0
    [SDo (VCreate (view "V" "n" "a" "x")); SListen 1 v_gvk; SStop 1; SListen 1 v_gvk; SDo (VUpdate (view "V" "n" "a" "y"))] in
  s_log s 1 = [WCreate (view "V" "n" "a" "x")] /\ op_get s 1 v_gvk "n" "a" = Some (view "V" "n" "a" "y").
Proof. split; vm_compute; reflexivity. Qed.
Print Assumptions C57_stopped_refuted.

(** While an event goes through the informers, operators may subscribe: all those that
    were there get it, each once and in order. *)
Theorem C57_overlap_partial : forall l acts, Forall (fun a => a = WNext \/ exists j, a = WRegister j) acts ->
  (length l <= length (List.filter is_next acts))%nat -> h_got (walk_run (walk_step (walk0 l) WStart) acts) = l.
Proof. intros l acts F L. rewrite (walk_quiet l acts F). by apply take_ge. Qed.
Print Assumptions C57_overlap_partial.

(** Refuted if an operator stops meanwhile: the event reaches another operator twice, or,
    if a third one subscribes as well, not at all. *)
Theorem C57_stop_overlap_refuted :
  h_got (walk_run (walk0 [1; 2; 3]%nat) [WStart; WUnregister 1; WNext; WNext; WNext]) = [3; 2; 3]%nat
  /\ h_got (walk_run (walk0 [1; 2; 3]%nat) [WStart; WNext; WUnregister 1; WRegister 4; WNext; WNext]) = [1; 2; 4]%nat.
Proof. split; vm_compute; reflexivity. Qed.
Print Assumptions C57_stop_overlap_refuted.

Example ex_C57 :
  let before := [SDo (VCreate (view "V" "n" "a" "x")); SListen 1 v_gvk; SListen 2 v_gvk] in
  let after := [SDo (VUpdate (view "V" "n" "a" "y")); SStop 1; SListen 3 v_gvk; SRemove 2 v_gvk; SDo (VCreate (view "V" "n" "b" "z"))] in
  let s := srun id_hash any_order (srun id_hash any_order shared0 before) (SListen 4 v_gvk :: after) in
  Forall sact_ok (before ++ after) /\ ~ In (SStop 4) before /\ keeps_op 4 v_gvk 2 after
  /\ s_log s 0 = [WCreate (view "V" "n" "a" "x"); WUpdate (Some (view "V" "n" "a" "x")) (Some (view "V" "n" "a" "y"))]
  /\ s_log s 2 = [WCreate (view "V" "n" "a" "x"); WUpdate (Some (view "V" "n" "a" "x")) (Some (view "V" "n" "a" "y")); WCreate (view "V" "n" "b" "z")]
  /\ s_log s 3 = [WCreate (view "V" "n" "a" "y"); WCreate (view "V" "n" "b" "z")].
Proof.
  intros before after s. split_and!; [|..|vm_compute; reflexivity|vm_compute; reflexivity|vm_compute; reflexivity].
  - repeat constructor; try apply own_v; done.
  - intros H; simpl in H; intuition discriminate.
  - split_and!; intros H; simpl in H; intuition discriminate.
Qed.
