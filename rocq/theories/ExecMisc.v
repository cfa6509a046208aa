(** Failed evaluations (C14), Reset (C15), snapshot conversion (C16). *)
From Verif Require Import ZSetModel OpsModel ExecModel ZSetSpec ZSetProofs ZSetProofs2 OpsSpec OpsProofs ExecSpec StreamProofs JoinProofs ChainProofs ChainProofs2 OptProofs IncrProofs IncrProofs2.

Section misc.
Context {DD : Docs}.
Variable sortv : list val -> list val.
Local Notation process := (process sortv).
Local Notation chain_process := (chain_process sortv).
Local Notation exec_process := (exec_process sortv).
Local Notation exec_run := (exec_run sortv).
Local Notation exec_scratch := (exec_scratch sortv).
Local Notation chain_stream := (chain_stream sortv).

(** ** Failed evaluations *)
Lemma chain_process_stateless cs : forall o n z, Forall (fun c => stateless (cn_op c)) cs -> (chain_process o n cs z).1 = cs.
Proof.
  induction cs as [|c cs IH]; intros o n z H; simpl; [done|]. apply Forall_cons in H as [Hc H].
  pose proof (stateless_step sortv (osub o n) (cn_op c) z Hc) as E.
  destruct (process (osub o n) (cn_op c) z) as [p' [m|]]; simpl in *; subst p'.
  - specialize (IH o (S n) m H). destruct (chain_process o (S n) cs m) as [cs' r]. simpl in *. subst. by destruct c.
  - by destruct c.
Qed.
Lemma opt_chain_stateless ps : forallb (fun p => user_op p && negb (is_nonlinear p)) ps = true ->
  Forall (fun c => stateless (cn_op c)) (opt_chain (user_chain ps)).
Proof.
  intros H. unfold opt_chain.
  assert (HL : lift (user_chain ps) = user_chain ps).
  { apply lift_id. unfold can_lift. clear -H. induction ps as [|p ps IH]; [done|]. simpl in *.
    apply andb_prop in H as [Hp H]. rewrite IH by done. destruct p; done. }
  rewrite HL.
  assert (H1 : Forall (fun c => stateless (cn_op c)) (user_chain ps)).
  { clear -H. induction ps as [|p ps IH]; simpl; constructor; simpl in H; apply andb_prop in H as [Hp H]; [by destruct p|auto]. }
  rewrite List.Forall_forall in *. intros c Hc. apply fuse_proj_sel_in in Hc as [Hc|Hc]; [|by destruct (cn_op c)].
  apply fuse_sel_projs_in in Hc as [Hc|Hc]; [auto|by destruct (cn_op c)].
Qed.
(** Pipelines without join and gather keep no state at all. *)
Lemma c14_nojoin kind ps g1 : pipeline_new [kind] None ps = Some g1 ->
  forallb (fun p => user_op p && negb (is_nonlinear p)) ps = true ->
  forall o i, (exec_process o g1 i).1 = g1.
Proof.
  intros Hg1 H o i.
  assert (Hu : forallb user_op ps = true).
  { clear -H. induction ps as [|p ps IH]; [done|]. simpl in *. apply andb_prop in H as [Hp H]. apply andb_prop in Hp as [-> _]. auto. }
  destruct (pipeline_graph [kind] None ps) as [g|] eqn:Hg; [|done].
  destruct (c12_optimize [kind] None ps g Hg Hu) as (Eo & _ & En); [done|].
  rewrite En in Hg1. injection Hg1 as <-. rewrite Eo. cbn [fst]. clear Eo En.
  pose proof (pipeline_graph_eq _ _ _ _ Hg) as ->. cbn [g_inputs g_join g_chain fmap option_fmap option_map inc_join].
  unfold ExecModel.exec_process. destruct (negb _); [done|]. cbn [g_inputs g_join g_chain].
  destruct (mapM _ _) as [ds|]; [|done]. destruct ds as [|z ds]; [done|].
  pose proof (chain_process_stateless _ (osub o 1) 0 z (opt_chain_stateless ps H)) as E.
  destruct (chain_process (osub o 1) 0 _ z) as [cs r]. simpl in *. by subst.
Qed.

(** A failing join leaves its state as it was. *)
Definition jeqv (j j' : jop) : Prop :=
  match j, j' with
  | JInc jev n prevs, JInc jev' n' prevs' => jev = jev' /\ n = n' /\ map (default zempty) prevs = map (default zempty) prevs'
  | _, _ => j = j'
  end.
Lemma jprocess_eqv o j j' ds : jeqv j j' -> (jprocess o j ds).2 = (jprocess o j' ds).2 /\ jeqv (jprocess o j ds).1 (jprocess o j' ds).1.
Proof.
  intros H.
  assert (HE : j = j' \/ exists jev n p p', j = JInc jev n p /\ j' = JInc jev n p' /\ map (default zempty) p = map (default zempty) p').
  { destruct j, j'; simpl in H; try (left; exact H). right. destruct H as (-> & -> & E). eauto 10. }
  destruct HE as [->|(jev & n & p & p' & -> & -> & E)].
  - split; [done|]. unfold jeqv. destruct (jprocess o j' ds).1; done.
  - simpl. unfold join_inc. rewrite E. case_decide; [|done].
    destruct (mask_loop _ _ _ _ _ _ _); [|done]. destruct (update_prevs _ _ _ _); done.
Qed.
Lemma jprocess_fail_eqv o jev n prevs ds : (jprocess o (JInc jev n prevs) ds).2 = None ->
  jeqv (jprocess o (JInc jev n prevs) ds).1 (JInc jev n prevs).
Proof.
  simpl. unfold join_inc. case_decide; simpl; [|done].
  assert (EM : map (default zempty) (map Some (map (default zempty) prevs)) = map (default zempty) prevs) by by rewrite !map_map.
  destruct (mask_loop _ _ _ _ _ _ _); simpl; [|done].
  destruct (update_prevs _ _ _ _); simpl; done.
Qed.
Definition geqv (g g' : graph) : Prop :=
  g_inputs g = g_inputs g' /\ g_chain g = g_chain g' /\
  match g_join g, g_join g' with Some j, Some j' => jeqv j j' | None, None => True | _, _ => False end.
Lemma exec_eqv o g g' i : geqv g g' -> (exec_process o g i).2 = (exec_process o g' i).2 /\ geqv (exec_process o g i).1 (exec_process o g' i).1.
Proof.
  destruct g as [names j cs], g' as [names' j' cs']. intros (E1 & E2 & Ej). cbn [g_inputs g_join g_chain] in *. subst names' cs'.
  unfold ExecModel.exec_process. cbn [g_inputs g_join g_chain]. destruct (negb _); [done|].
  destruct (mapM _ _) as [ds|]; [|done]. destruct j as [j|], j' as [j'|]; try done.
  - destruct (jprocess_eqv (osub o 0) j j' ds Ej) as [H1 H2].
    destruct (jprocess (osub o 0) j ds) as [j1 r1], (jprocess (osub o 0) j' ds) as [j1' r1']. simpl in *. subst r1'.
    destruct r1 as [z|]; [|done]. destruct (chain_process (osub o 1) 0 cs z) as [cs1 r]. done.
  - destruct ds as [|z ds]; [done|]. destruct (chain_process (osub o 1) 0 cs z) as [cs1 r]. done.
Qed.
Lemma exec_run_eqv o ins : forall n g g', geqv g g' -> (exec_run o n g ins).2 = (exec_run o n g' ins).2.
Proof.
  induction ins as [|i ins IH]; intros n g g' H; [done|]. simpl.
  destruct (exec_eqv (osub o n) g g' i H) as [E1 E2].
  destruct (exec_process (osub o n) g i) as [g1 r], (exec_process (osub o n) g' i) as [g1' r']. simpl in *. subst r'.
  specialize (IH (S n) g1 g1' E2). destruct (exec_run o (S n) g1 ins), (exec_run o (S n) g1' ins). simpl in *. congruence.
Qed.

(** Join pipelines whose chain cannot fail: a failure does not change what
    later evaluations return. *)
Definition jgraph (g : graph) : Prop :=
  (exists jev n prevs, g_join g = Some (JInc jev n prevs) /\ jev_ok jev /\ length prevs = n /\ Forall zwf (map (default zempty) prevs))
  /\ Forall (fun c => stateless (cn_op c)) (g_chain g) /\ Forall (fun c => op_total (cn_op c) /\ op_wf (cn_op c)) (g_chain g).
Lemma jgraph_step o g i : order_ok o -> map_Forall (fun _ z => zwf z) i -> jgraph g -> jgraph (exec_process o g i).1.
Proof.
  intros Ho Wi ((jev & n & prevs & Ej & Hj & L & W) & H1 & H2). destruct g as [names j cs]. simpl in *. subst j.
  unfold ExecModel.exec_process. cbn [g_inputs g_join g_chain].
  assert (H0 : jgraph (Graph names (Some (JInc jev n prevs)) cs)) by (split; [|done]; exists jev, n, prevs; done).
  destruct (negb _); [done|]. destruct (mapM _ _) as [ds|] eqn:Ed; [|done].
  pose proof (mapM_wf _ _ _ Wi Ed) as Wd. simpl.
  destruct (join_inc (osub o 0) jev n prevs ds) as [ps r] eqn:EJ.
  assert (Hps : jgraph (Graph names (Some (JInc jev n ps)) cs)).
  { split; [|done]. exists jev, n, ps. split; [done|]. split; [done|].
    destruct (decide (length ds = n)) as [Ln|Ln].
    - pose proof (join_inc_step (osub o 0) jev n prevs ds ps r (osub_ok o 0 Ho) Hj W Wd L Ln EJ) as HS.
      destruct r as [y|].
      + destruct HS as (Ps' & -> & WP' & HS & _). rewrite map_length, map_map. simpl. rewrite map_id. split; [destruct HS; lia|done].
      + destruct HS as [-> _]. rewrite !map_length, map_map. simpl. rewrite map_id. done.
    - unfold join_inc in EJ. rewrite decide_False in EJ by done. injection EJ as <- _. done. }
  destruct r as [z|]; [|done].
  pose proof (chain_process_stateless cs (osub o 1) 0 z H1) as E.
  destruct (chain_process (osub o 1) 0 cs z) as [cs' r]. simpl in *. by subst cs'.
Qed.
Lemma jgraph_run o ins : order_ok o -> ins_wf ins -> forall n g, jgraph g -> jgraph (exec_run o n g ins).1.
Proof.
  intros Ho. induction ins as [|i ins IH]; intros Wi n g H; [done|]. apply Forall_cons in Wi as [Wi Wis]. simpl.
  pose proof (jgraph_step (osub o n) g i (osub_ok o n Ho) Wi H) as H'.
  destruct (exec_process (osub o n) g i) as [g1 r]. simpl in H'. specialize (IH Wis (S n) g1 H').
  destruct (exec_run o (S n) g1 ins). done.
Qed.
Lemma jgraph_fail o g i : order_ok o -> map_Forall (fun _ z => zwf z) i -> jgraph g -> (exec_process o g i).2 = None ->
  geqv (exec_process o g i).1 g.
Proof.
  intros Ho Wi ((jev & n & prevs & Ej & Hj & L & W) & H1 & H2) HN. destruct g as [names j cs]. simpl in *. subst j.
  unfold ExecModel.exec_process in *. cbn [g_inputs g_join g_chain] in *.
  destruct (negb _); [done|]. destruct (mapM _ _) as [ds|] eqn:Ed; [|done].
  pose proof (mapM_wf _ _ _ Wi Ed) as Wd.
  pose proof (jprocess_fail_eqv (osub o 0) jev n prevs ds) as HF.
  destruct (jprocess (osub o 0) (JInc jev n prevs) ds) as [j1 r] eqn:EJ. simpl in HF.
  destruct r as [z|]; [|split_and!; try done; by apply HF].
  exfalso. simpl in EJ. destruct (join_inc (osub o 0) jev n prevs ds) as [ps r'] eqn:EJ'. injection EJ as <- ->.
  assert (Wz : zwf z).
  { destruct (decide (length ds = n)) as [Ln|Ln].
    - pose proof (join_inc_step (osub o 0) jev n prevs ds ps (Some z) (osub_ok o 0 Ho) Hj W Wd L Ln EJ') as (? & _ & _ & _ & ? & _). done.
    - unfold join_inc in EJ'. by rewrite decide_False in EJ'. }
  destruct (chain_process_total sortv cs (osub o 1) 0 z H2 (osub_ok o 1 Ho) Wz) as (cs' & y & E & _). rewrite E in HN. done.
Qed.
Lemma c14_join kinds jev ps g1 o hist oi i :
  pipeline_new kinds (Some jev) ps = Some g1 -> kinds <> [] ->
  forallb (fun p => user_op p && negb (is_nonlinear p)) ps = true -> Forall op_ok ps -> Forall op_total ps -> jev_ok jev ->
  order_ok o -> order_ok oi -> ins_wf hist -> map_Forall (fun _ z => zwf z) i ->
  let g := (exec_run o 0 g1 hist).1 in
  (exec_process oi g i).2 = None ->
  forall o' n ins, (exec_run o' n (exec_process oi g i).1 ins).2 = (exec_run o' n g ins).2.
Proof.
  intros Hg1 Hk H Hok Ht Hj Ho Hoi Wh Wi g HN o' n ins. apply exec_run_eqv. apply jgraph_fail; try done.
  apply jgraph_run; try done.
  assert (Hu : forallb user_op ps = true).
  { clear -H. induction ps as [|p ps IH]; [done|]. simpl in *. apply andb_prop in H as [Hp H]. apply andb_prop in Hp as [-> _]. auto. }
  destruct (pipeline_graph kinds (Some jev) ps) as [g0|] eqn:Hg; [|by rewrite (pipeline_new_none _ _ _ Hg) in Hg1].
  destruct (c12_optimize kinds (Some jev) ps g0 Hg Hu Hk) as (Eo & _ & En).
  rewrite En in Hg1. injection Hg1 as <-. rewrite Eo. cbn [fst]. clear Eo En.
  pose proof (pipeline_graph_eq _ _ _ _ Hg) as ->.
  assert (E0 : map cn_op (user_chain ps) = ps) by (unfold user_chain; by rewrite map_map, map_id).
  split; [|split]; cbn [g_inputs g_join g_chain].
  - exists jev, (length kinds), (repeat None (length kinds)). split_and!; try done; [apply repeat_length|].
    apply List.Forall_forall. intros x Hx. apply in_map_iff in Hx as (x' & <- & Hx).
    apply repeat_spec in Hx as ->. apply wf_empty.
  - by apply opt_chain_stateless.
  - assert (T1 : Forall op_total (map cn_op (opt_chain (user_chain ps)))).
    { apply op_total_proj_sel, op_total_fused. apply lift_ops; [done|done|]. by rewrite E0. }
    pose proof (opt_chain_stateless ps H) as T2. rewrite Forall_map in T1. rewrite List.Forall_forall in *.
    intros c Hc. split; [by apply T1|]. specialize (T2 c Hc). by destruct (cn_op c).
Qed.

(** ** Reset *)
Lemma reset_process o p z : reset_op (process o p z).1 = reset_op p.
Proof.
  destruct p; try done; simpl.
  - by destruct (zadd o state z).
  - by destruct (zsub o z prev).
Qed.
Definition reset_chain (cs : list cnode) : list cnode := map (fun c => CNode (reset_op (cn_op c)) (cn_lifted c)) cs.
Lemma reset_chain_process cs : forall o n z, reset_chain (chain_process o n cs z).1 = reset_chain cs.
Proof.
  induction cs as [|c cs IH]; intros o n z; [done|]. simpl.
  pose proof (reset_process (osub o n) (cn_op c) z) as E. destruct (process (osub o n) (cn_op c) z) as [p' [m|]]; simpl in E.
  - specialize (IH o (S n) m). destruct (chain_process o (S n) cs m) as [cs' r]. simpl in *. by rewrite E, IH.
  - simpl. by rewrite E.
Qed.
Lemma reset_jprocess o j ds : not_jinc j = true -> reset_jop (jprocess o j ds).1 = reset_jop j /\ not_jinc (jprocess o j ds).1 = true.
Proof.
  destruct j; try done; simpl; intros _.
  - destruct ds as [|? [|? [|? ?]]]; done.
  - destruct ds as [|? [|? [|? ?]]]; try done. by destruct (bjoin_inc _ _ _ _ _ _).
Qed.
Lemma exec_reset_step o g i : match g_join g with Some j => not_jinc j = true | None => True end ->
  exec_reset (exec_process o g i).1 = exec_reset g /\ match g_join (exec_process o g i).1 with Some j => not_jinc j = true | None => True end.
Proof.
  destruct g as [names j cs]. intros Hj. cbn [g_join] in Hj. unfold ExecModel.exec_process. cbn [g_inputs g_join g_chain].
  destruct (negb _); [done|]. destruct (mapM _ _) as [ds|]; [|done].
  destruct j as [j|].
  - destruct (reset_jprocess (osub o 0) j ds Hj) as [E1 E2].
    destruct (jprocess (osub o 0) j ds) as [j1 [z|]]; simpl in E1, E2.
    + pose proof (reset_chain_process cs (osub o 1) 0 z) as E. destruct (chain_process (osub o 1) 0 cs z) as [cs' r].
      unfold exec_reset. simpl in *. fold (reset_chain cs) (reset_chain cs'). by rewrite E, E1.
    + unfold exec_reset. simpl. by rewrite E1.
  - destruct ds as [|z ds]; [done|].
    pose proof (reset_chain_process cs (osub o 1) 0 z) as E. destruct (chain_process (osub o 1) 0 cs z) as [cs' r].
    unfold exec_reset. simpl in *. fold (reset_chain cs) (reset_chain cs'). by rewrite E.
Qed.
Lemma c15_reset o ins : forall n g, match g_join g with Some j => not_jinc j = true | None => True end ->
  exec_reset (exec_run o n g ins).1 = exec_reset g.
Proof.
  induction ins as [|i ins IH]; intros n g H; [done|]. simpl.
  destruct (exec_reset_step (osub o n) g i H) as [E1 E2].
  destruct (exec_process (osub o n) g i) as [g1 r]. simpl in *. specialize (IH (S n) g1 E2).
  destruct (exec_run o (S n) g1 ins). simpl in *. congruence.
Qed.
Lemma reset_fresh g : graph_fresh g -> exec_reset g = g.
Proof.
  intros [Hc Hj]. destruct g as [names j cs]. unfold exec_reset. cbn [g_inputs g_join g_chain] in *. f_equal.
  - destruct j as [j|]; [|done]. simpl. destruct j; try done. destruct Hj as [-> ->]. done.
  - induction Hc as [|[p l] cs Hp Hc IH]; simpl; [done|]. rewrite IH. f_equal. f_equal. destruct p; simpl in *; subst; done.
Qed.
Lemma c15_fresh o o' n ins g hist : graph_fresh g -> match g_join g with Some j => not_jinc j = true | None => True end ->
  exec_run o' n (exec_reset (exec_run o 0 g hist).1) ins = exec_run o' n g ins.
Proof. intros Hf Hj. by rewrite c15_reset, reset_fresh. Qed.
(** The chain part is always reset. *)
Lemma exec_reset_chain_step o g i : reset_chain (g_chain (exec_process o g i).1) = reset_chain (g_chain g).
Proof.
  destruct g as [names j cs]. unfold ExecModel.exec_process. cbn [g_inputs g_join g_chain].
  destruct (negb _); [done|]. destruct (mapM _ _) as [ds|]; [|done].
  destruct j as [j|].
  - destruct (jprocess (osub o 0) j ds) as [j1 [z|]]; [|done].
    pose proof (reset_chain_process cs (osub o 1) 0 z) as E. by destruct (chain_process (osub o 1) 0 cs z).
  - destruct ds as [|z ds]; [done|].
    pose proof (reset_chain_process cs (osub o 1) 0 z) as E. by destruct (chain_process (osub o 1) 0 cs z).
Qed.

(** ** Snapshot conversion *)
Lemma basic_user ps : forallb basic_op ps = true -> forallb user_op ps = true /\ lift (user_chain ps) = user_chain ps
  /\ Forall stateless ps.
Proof.
  intros H. split_and!.
  - clear -H. induction ps as [|p ps IH]; [done|]. simpl in *. apply andb_prop in H as [Hp H]. rewrite IH by done. by destruct p.
  - apply lift_id. unfold can_lift. clear -H. induction ps as [|p ps IH]; [done|]. simpl in *.
    apply andb_prop in H as [Hp H]. rewrite IH by done. destruct p; done.
  - clear -H. induction ps as [|p ps IH]; constructor; simpl in H; apply andb_prop in H as [Hp H]; [by destruct p|auto].
Qed.
Lemma snapshot_mapM cs : Forall (fun c => is_Some (snapshot_op (cn_op c))) cs -> mapM (fun c => snapshot_op (cn_op c)) cs = Some (map cn_op cs).
Proof.
  induction 1 as [|c cs [p Hp] H IH]; [done|]. simpl. rewrite Hp, IH. simpl. f_equal. f_equal.
  destruct (cn_op c); simpl in Hp; congruence.
Qed.
Lemma opt_basic ps c : forallb basic_op ps = true -> In c (opt_chain (user_chain ps)) ->
  is_Some (snapshot_op (cn_op c)) /\ is_Some (incremental_op (cn_op c)) /\ cn_lifted c = false.
Proof.
  intros H Hc. destruct (basic_user ps H) as (_ & HL & _). unfold opt_chain in Hc. rewrite HL in Hc.
  assert (F0 : Forall (fun c => cn_lifted c = false) (user_chain ps)) by (clear; induction ps; constructor; done).
  assert (F1 : forall n cs, Forall (fun c => cn_lifted c = false) cs -> Forall (fun c => cn_lifted c = false) (fuse_sel_projs n cs)).
  { induction n as [|n IH]; intros cs F; [done|]. destruct cs as [|c0 l]; [done|]. apply Forall_cons in F as [F1 F2]. simpl.
    assert (Hd : Forall (fun c => cn_lifted c = false) (c0 :: fuse_sel_projs n l)) by (constructor; auto).
    destruct (cn_op c0); try exact Hd; destruct (span_projs l) as [[|e0 evs] r] eqn:Es; try exact Hd;
      (constructor; [done|]; apply IH; rewrite List.Forall_forall in *; intros x Hx; apply F2; eapply span_projs_in; eauto). }
  assert (F2 : forall cs, Forall (fun c => cn_lifted c = false) cs -> Forall (fun c => cn_lifted c = false) (fuse_proj_sel cs)).
  { intros cs. remember (length cs) as n eqn:En. revert cs En. induction (lt_wf n) as [n _ IH]. intros cs -> F.
    destruct cs as [|c1 [|c2 l]]; [done|done|]. rewrite fuse_proj_sel_eq. apply Forall_cons in F as [Fa Fb].
    pose proof Fb as Fb'. apply Forall_cons in Fb' as [Fc Fd].
    assert (Hd : Forall (fun c => cn_lifted c = false) (c1 :: fuse_proj_sel (c2 :: l))).
    { constructor; [done|]. apply (IH (length (c2 :: l))); [simpl; lia|done|done]. }
    destruct (cn_op c1); try exact Hd. destruct (cn_op c2); try exact Hd.
    constructor; [done|]. apply (IH (length l)); [simpl; lia|done|done]. }
  split; [|split].
  - apply fuse_proj_sel_in in Hc as [Hc|Hc]; [|destruct (cn_op c); try done; simpl; eauto].
    apply fuse_sel_projs_in in Hc as [Hc|Hc]; [|destruct (cn_op c); try done; simpl; eauto].
    apply in_map_iff in Hc as (p & <- & Hp). rewrite forallb_forall in H. specialize (H p Hp). destruct p; try done; simpl; eauto.
  - apply fuse_proj_sel_in in Hc as [Hc|Hc]; [|destruct (cn_op c); try done; simpl; eauto].
    apply fuse_sel_projs_in in Hc as [Hc|Hc]; [|destruct (cn_op c); try done; simpl; eauto].
    apply in_map_iff in Hc as (p & <- & Hp). rewrite forallb_forall in H. specialize (H p Hp). destruct p; try done; simpl; eauto.
  - specialize (F2 _ (F1 (length (user_chain ps)) _ F0)). rewrite List.Forall_forall in F2. auto.
Qed.
Lemma input_names_nodup kinds : NoDup (input_names kinds).
Proof.
  unfold input_names. assert (G : forall g, NoDup (g_inputs g) -> NoDup (g_inputs (foldl add_input g kinds))).
  { induction kinds as [|k kinds IH]; intros g H; simpl; [done|]. apply IH. unfold add_input. case_decide as Hd; [done|].
    simpl. apply NoDup_app. split; [done|]. split; [|apply NoDup_singleton].
    intros x Hx Hx'. apply elem_of_list_singleton in Hx'. by subst. }
  apply G. constructor.
Qed.
Lemma input_names_idem kinds : input_names (input_names kinds) = input_names kinds.
Proof. unfold input_names at 1. rewrite add_inputs_nodup; [done|]. simpl. apply input_names_nodup. Qed.

Lemma c16_available kinds join ps g1 : pipeline_new kinds join ps = Some g1 -> kinds <> [] -> forallb basic_op ps = true ->
  exists gs, to_snapshot_graph g1 = Some gs /\ to_incremental_graph gs = Some g1
  /\ g_inputs gs = g_inputs g1 /\ g_join gs = (fun jev => new_join jev (length kinds)) <$> join /\ g_chain gs = opt_chain (user_chain ps).
Proof.
  intros Hg1 Hk Hb. destruct (basic_user ps Hb) as (Hu & HL & _).
  destruct (pipeline_graph kinds join ps) as [g|] eqn:Hg; [|by rewrite (pipeline_new_none _ _ _ Hg) in Hg1].
  destruct (c12_optimize kinds join ps g Hg Hu Hk) as (Eo & _ & En).
  assert (V1 : validate g1 = true).
  { unfold pipeline_new in Hg1. rewrite (pipeline_inc_graph_eq _ _ _ _ Hg) in Hg1. unfold mbind, option_bind in Hg1.
    destruct (optimize _) as [g2 ok].
    destruct ok; [|done]. simpl in Hg1. destruct (validate g2) eqn:E; [|done]. by injection Hg1 as <-. }
  rewrite En in Hg1. injection Hg1 as <-. rewrite Eo in *. cbn [fst] in *. clear Eo En.
  pose proof (pipeline_graph_eq _ _ _ _ Hg) as ->. cbn [g_inputs g_join g_chain] in *.
  assert (EC : map (fun p => CNode p false) (map cn_op (opt_chain (user_chain ps))) = opt_chain (user_chain ps)).
  { rewrite map_map. rewrite <- (map_id (opt_chain (user_chain ps))) at 2. apply map_ext_in. intros c Hc.
    destruct (opt_basic ps c Hb Hc) as (_ & _ & HF). destruct c; simpl in *. by subst. }
  exists (Graph (input_names kinds) ((fun jev => new_join jev (length kinds)) <$> join) (opt_chain (user_chain ps))).
  unfold to_snapshot_graph, to_incremental_graph, convert_graph. rewrite V1. cbn [g_inputs g_join g_chain].
  rewrite snapshot_mapM.
  2:{ apply List.Forall_forall. intros c Hc. by apply opt_basic in Hc as (? & _). }
  assert (E2 : mapM (fun c => incremental_op (cn_op c)) (opt_chain (user_chain ps)) = Some (map cn_op (opt_chain (user_chain ps)))).
  { assert (F : Forall (fun c => is_Some (incremental_op (cn_op c))) (opt_chain (user_chain ps))).
    { apply List.Forall_forall. intros c Hc. by apply opt_basic in Hc as (_ & ? & _). }
    clear -F. induction F as [|c cs [p Hp] F IH]; [done|]. simpl. rewrite Hp, IH. simpl. f_equal. f_equal.
    destruct (cn_op c); simpl in Hp; congruence. }
  assert (V2 : validate (Graph (input_names kinds) ((fun jev => new_join jev (length kinds)) <$> join) (opt_chain (user_chain ps))) = true).
  { unfold validate in *. cbn [g_inputs g_join] in *. destruct (input_names kinds) as [|? [|? ?]]; [done|done|]. by destruct join. }
  rewrite V2, E2. simpl. rewrite EC. fold (input_names (input_names kinds)). rewrite input_names_idem.
  split_and!; try done; destruct join; done.
Qed.
Lemma mapM_none {A B} (f : A -> option B) l x : In x l -> f x = None -> mapM f l = None.
Proof.
  induction l as [|y l IH]; simpl; [done|]. intros [->|Hin] E; [by rewrite E|]. rewrite (IH Hin E). by destruct (f y).
Qed.
(** Fused chains keep every node that is not a selection or projection. *)
Lemma fuse_sel_projs_keeps n : forall cs c, In c cs -> is_sel (cn_op c) = false -> is_proj (cn_op c) = false -> (length cs <= n)%nat -> In c (fuse_sel_projs n cs).
Proof.
  induction n as [|n IH]; intros cs c Hc H1 H2 Hn; [done|]. destruct cs as [|c0 l]; [done|]. simpl in Hn |- *.
  assert (Hd : In c (c0 :: fuse_sel_projs n l)).
  { destruct Hc as [->|Hc]; [by left|]. right. apply IH; auto. lia. }
  destruct (cn_op c0) eqn:E0; try exact Hd; destruct (span_projs l) as [[|e0 evs] r] eqn:Es; try exact Hd.
  - destruct Hc as [->|Hc]; [by rewrite E0 in H2|]. right.
    destruct (span_projs_spec l _ _ Es) as (_ & L & _). simpl in L. apply IH; auto; [|lia].
    clear -Hc Es H2. revert e0 evs r Es. induction l as [|c1 l IHl]; intros e0 evs r Es; [done|]. simpl in Es.
    destruct (cn_op c1) eqn:E1; try done. destruct (span_projs l) as [evs' r'] eqn:Es'. injection Es as <- <- <-.
    destruct Hc as [->|Hc]; [by rewrite E1 in H2|]. destruct evs' as [|e1 evs'].
    + clear -Es' Hc. destruct l as [|c2 l]; [done|]. simpl in Es'. destruct (cn_op c2); try (by injection Es' as <-). by destruct (span_projs l).
    + by eapply IHl.
  - destruct Hc as [->|Hc]; [by rewrite E0 in H1|]. right.
    destruct (span_projs_spec l _ _ Es) as (_ & L & _). simpl in L. apply IH; auto; [|lia].
    clear -Hc Es H2. revert e0 evs r Es. induction l as [|c1 l IHl]; intros e0 evs r Es; [done|]. simpl in Es.
    destruct (cn_op c1) eqn:E1; try done. destruct (span_projs l) as [evs' r'] eqn:Es'. injection Es as <- <- <-.
    destruct Hc as [->|Hc]; [by rewrite E1 in H2|]. destruct evs' as [|e1 evs'].
    + clear -Es' Hc. destruct l as [|c2 l]; [done|]. simpl in Es'. destruct (cn_op c2); try (by injection Es' as <-). by destruct (span_projs l).
    + by eapply IHl.
Qed.
Lemma fuse_proj_sel_keeps cs c : In c cs -> is_sel (cn_op c) = false -> is_proj (cn_op c) = false -> In c (fuse_proj_sel cs).
Proof.
  remember (length cs) as n eqn:En. revert cs En. induction (lt_wf n) as [n _ IH]. intros cs -> Hc H1 H2.
  destruct cs as [|c1 [|c2 l]]; [done|done|]. rewrite fuse_proj_sel_eq.
  assert (Hd : In c (c1 :: fuse_proj_sel (c2 :: l))).
  { destruct Hc as [->|Hc]; [by left|]. right. apply (IH (length (c2 :: l))); [simpl; lia|done|done|done|done]. }
  destruct (cn_op c1) eqn:E1; try exact Hd. destruct (cn_op c2) eqn:E2; try exact Hd.
  destruct Hc as [->|[->|Hc]]; [by rewrite E1 in H2|by rewrite E2 in H1|]. right.
  apply (IH (length l)); [simpl; lia|done|done|done|done].
Qed.
Lemma c16_unavailable kinds join ps g1 : pipeline_new kinds join ps = Some g1 -> kinds <> [] ->
  forallb user_op ps = true -> forallb basic_op ps = false -> to_snapshot_graph g1 = None.
Proof.
  intros Hg1 Hk Hu Hb.
  destruct (pipeline_graph kinds join ps) as [g|] eqn:Hg; [|by rewrite (pipeline_new_none _ _ _ Hg) in Hg1].
  destruct (c12_optimize kinds join ps g Hg Hu Hk) as (Eo & _ & En).
  rewrite En in Hg1. injection Hg1 as <-. rewrite Eo. cbn [fst]. clear Eo En.
  pose proof (pipeline_graph_eq _ _ _ _ Hg) as ->. cbn [g_inputs g_join g_chain].
  unfold to_snapshot_graph, convert_graph. cbn [g_inputs g_join g_chain]. destruct (validate _); [|done].
  assert (exists c, In c (lift (user_chain ps)) /\ snapshot_op (cn_op c) = None) as (c & Hc & Hs).
  { clear -Hu Hb. induction ps as [|p ps IH]; [done|]. simpl in Hu, Hb. apply andb_prop in Hu as [Hp Hu].
    change (user_chain (p :: ps)) with (CNode p false :: user_chain ps). rewrite lift_cons. simpl in IH.
    destruct (basic_op p) eqn:E.
    - destruct (IH Hu Hb) as (c & Hc & Hs). exists c. split; [|done]. apply in_app_iff. by right.
    - destruct p; try done.
      + exists (CNode (OUnwind ex tr) false). split; [by left|done].
      + exists (CNode new_integrator false). split; [by left|done]. }
  rewrite (mapM_none _ (opt_chain (user_chain ps)) c); [done| |done].
  unfold opt_chain. apply fuse_proj_sel_keeps; [apply fuse_sel_projs_keeps|..]; auto; destruct (cn_op c); done.
Qed.

(** What the snapshot graph computes. *)
Lemma scratch_fused ps z y : Forall op_ok ps -> forallb basic_op ps = true -> zwf z ->
  chain_stream (opt_chain (user_chain ps)) [z] [y] -> ExecSpec.scratch sortv ps z y.
Proof.
  intros Hok Hb W H. destruct (basic_user ps Hb) as (_ & HL & Hs).
  assert (Wz : Forall zwf [z]) by (constructor; [done|constructor]).
  apply opt_chain_stream in H; [|done|done]. rewrite HL in H.
  apply chain_stream_stateless in H; [|done]. by inversion H.
Qed.
Lemma c16_snapshot_sound kinds join ps g g1 gs o acc gs' y :
  pipeline_graph kinds join ps = Some g -> pipeline_new kinds join ps = Some g1 -> to_snapshot_graph g1 = Some gs ->
  kinds <> [] -> forallb basic_op ps = true -> Forall op_ok ps -> (forall jev, join = Some jev -> jev_ok jev) ->
  order_ok o -> map_Forall (fun _ z => zwf z) acc ->
  exec_process o gs acc = (gs', Some y) -> gs' = gs /\ exec_scratch g acc y.
Proof.
  intros Hg Hg1 Hgs Hk Hb Hok Hj Ho Wa E.
  destruct (c16_available kinds join ps g1 Hg1 Hk Hb) as (gs0 & Egs & _ & EI & EJ & EC).
  rewrite Egs in Hgs. injection Hgs as ->.
  destruct (basic_user ps Hb) as (Hu & HL & Hst).
  destruct (c12_optimize kinds join ps g Hg Hu Hk) as (Eo & _ & En).
  assert (EI' : g_inputs gs = g_inputs g). { rewrite EI. rewrite En in Hg1. injection Hg1 as <-. by rewrite Eo. }
  pose proof (pipeline_graph_eq _ _ _ _ Hg) as ->. cbn [g_inputs g_join g_chain] in *. clear Eo En EI Egs Hg1.
  destruct gs as [names j cs]. cbn [g_inputs g_join g_chain] in *. subst names j cs.
  unfold ExecModel.exec_process in E. destruct (negb _); [done|]. cbn [g_inputs g_join g_chain] in *.
  destruct (mapM (fun n => acc !! n) (input_names kinds)) as [zs|] eqn:Em; [|done].
  assert (Wz : Forall zwf zs) by by eapply mapM_wf.
  assert (E0 : map cn_op (user_chain ps) = ps) by (unfold user_chain; by rewrite map_map, map_id).
  assert (HB : forallb (fun p => user_op p && negb (is_nonlinear p)) ps = true).
  { clear -Hb. induction ps as [|p ps IH]; [done|]. simpl in *. apply andb_prop in Hb as [Hp Hb]. rewrite IH by done. by destruct p. }
  pose proof (opt_chain_stateless ps HB) as Hsl.
  assert (Wc : Forall op_wf (map cn_op (opt_chain (user_chain ps)))).
  { rewrite Forall_map. eapply Forall_impl; [exact Hsl|]. intros [p l] Hp; simpl in *; by destruct p. }
  assert (G : forall oc z cs r, order_ok oc -> zwf z -> chain_process oc 0 (opt_chain (user_chain ps)) z = (cs, Some r) ->
    cs = opt_chain (user_chain ps) /\ ExecSpec.scratch sortv ps z r).
  { intros oc z cs r Hoc W Ec. pose proof (chain_process_stateless _ oc 0 z Hsl) as Es. rewrite Ec in Es. simpl in Es. subst cs.
    split; [done|]. apply scratch_fused; auto. eapply chain_steps_stream; [|done|by constructor].
    eapply cs_cons; [exact Hoc|exact Ec|constructor]. }
  destruct join as [jev|]; simpl in E.
  - destruct (join_snapshot (osub o 0) jev (length kinds) zs) as [J|] eqn:EJ'; [|done].
    destruct (chain_process (osub o 1) 0 _ J) as [cs r] eqn:Ec. injection E as <- ->.
    assert (WJ : zwf J).
    { unfold join_snapshot in EJ'. case_decide; [|done]. by apply cjoin_top in EJ' as [? _]; auto using osub_ok. }
    apply G in Ec as [-> Hs]; auto using osub_ok. split; [done|].
    exists zs, J. cbn [g_inputs g_join g_chain]. rewrite E0. split_and!; try done. exists (osub o 0). auto using osub_ok.
  - destruct zs as [|z zs]; [done|]. apply Forall_cons in Wz as [Wz _].
    destruct (chain_process (osub o 1) 0 _ z) as [cs r] eqn:Ec. injection E as <- ->.
    apply G in Ec as [-> Hs]; auto using osub_ok. split; [done|].
    exists (z :: zs), z. cbn [g_inputs g_join g_chain]. rewrite E0. split_and!; done.
Qed.
Lemma basic_det ps : forallb basic_op ps = true -> Forall op_ok ps -> Forall (op_det sortv) ps.
Proof.
  intros H F. induction F as [|p ps Hp F IH]; constructor; simpl in H; apply andb_prop in H as [Hb H]; [|auto].
  apply op_det_simple; [by destruct p|]. by apply op_ok_evs.
Qed.
(** The snapshot graph agrees with the stages as written. *)
Lemma c16_snapshot_eq kinds join ps g g1 gs o o' acc gs' y :
  pipeline_graph kinds join ps = Some g -> pipeline_new kinds join ps = Some g1 -> to_snapshot_graph g1 = Some gs ->
  kinds <> [] -> forallb basic_op ps = true -> Forall op_ok ps -> (forall jev, join = Some jev -> jev_ok jev) ->
  order_ok o -> order_ok o' -> map_Forall (fun _ z => zwf z) acc ->
  exec_process o gs acc = (gs', Some y) ->
  gs' = gs /\ exists y', exec_process o' g acc = (g, Some y') /\ zeq y y'.
Proof.
  intros Hg Hg1 Hgs Hk Hb Hok Hj Ho Ho' Wa E.
  destruct (c16_snapshot_sound kinds join ps g g1 gs o acc gs' y) as [-> HS]; auto. split; [done|].
  destruct (basic_user ps Hb) as (Hu & _ & _).
  destruct (exec_scratch_run sortv kinds join ps g acc y o') as (y' & E' & Ey & _); auto using basic_det.
  - destruct (c16_available kinds join ps g1 Hg1 Hk Hb) as (gs0 & Egs & _ & EI & _ & _).
    rewrite Egs in Hgs. injection Hgs as ->.
    unfold ExecModel.exec_process in E. destruct (Nat.eqb (size acc) (length (g_inputs gs))) eqn:Esz; [|done].
    apply Nat.eqb_eq in Esz. rewrite Esz, EI.
    destruct (c12_optimize kinds join ps g Hg Hu Hk) as (Eo & _ & En). rewrite En in Hg1. injection Hg1 as <-. by rewrite Eo.
  - exists y'. done.
Qed.

(** Total user code: the snapshot graph always succeeds. *)
Lemma c16_total kinds join ps g1 gs o acc :
  pipeline_new kinds join ps = Some g1 -> to_snapshot_graph g1 = Some gs -> kinds <> [] -> NoDup kinds ->
  forallb basic_op ps = true -> Forall op_ok ps -> Forall op_total ps -> (forall jev, join = Some jev -> jev_ok jev /\ jev_total jev) ->
  order_ok o -> feeds kinds acc -> exists y, exec_process o gs acc = (gs, Some y).
Proof.
  intros Hg1 Hgs Hk ND Hb Hok Ht Hj Ho (Hsz & Hl & Wa).
  destruct (c16_available kinds join ps g1 Hg1 Hk Hb) as (gs0 & Egs & _ & EI & EJ & EC).
  rewrite Egs in Hgs. injection Hgs as ->. destruct (basic_user ps Hb) as (Hu & HL & Hst).
  destruct (pipeline_graph kinds join ps) as [g|] eqn:Hg; [|by rewrite (pipeline_new_none _ _ _ Hg) in Hg1].
  destruct (c12_optimize kinds join ps g Hg Hu Hk) as (Eo & _ & En).
  assert (EI' : g_inputs gs = kinds).
  { rewrite EI. rewrite En in Hg1. injection Hg1 as <-. rewrite Eo. simpl. rewrite (pipeline_graph_eq _ _ _ _ Hg).
    cbn [g_inputs]. unfold input_names. by rewrite add_inputs_nodup. }
  clear EI. destruct gs as [names j cs]. cbn [g_inputs g_join g_chain] in *. subst names j cs.
  unfold ExecModel.exec_process. cbn [g_inputs g_join g_chain]. rewrite Hsz, Nat.eqb_refl. cbn [negb].
  destruct (feeds_mapM kinds acc Hl) as [zs Em]. rewrite Em. pose proof (mapM_wf _ _ _ Wa Em) as Wz.
  destruct (mapM_lookup_nth _ _ _ Em) as [Ld _].
  assert (E0 : map cn_op (user_chain ps) = ps) by (unfold user_chain; by rewrite map_map, map_id).
  assert (HB : forallb (fun p => user_op p && negb (is_nonlinear p)) ps = true).
  { clear -Hb. induction ps as [|p ps IH]; [done|]. simpl in *. apply andb_prop in Hb as [Hp Hb]. rewrite IH by done. by destruct p. }
  pose proof (opt_chain_stateless ps HB) as Hsl.
  assert (T : Forall (fun c => op_total (cn_op c) /\ op_wf (cn_op c)) (opt_chain (user_chain ps))).
  { assert (T1 : Forall op_total (map cn_op (opt_chain (user_chain ps)))).
    { apply op_total_proj_sel, op_total_fused. apply lift_ops; [done|done|]. by rewrite E0. }
    rewrite Forall_map in T1. rewrite List.Forall_forall in *.
    intros c Hc. split; [by apply T1|]. specialize (Hsl c Hc). by destruct (cn_op c). }
  assert (G : forall z, zwf z -> exists y, chain_process (osub o 1) 0 (opt_chain (user_chain ps)) z = (opt_chain (user_chain ps), Some y)).
  { intros z W. destruct (chain_process_total sortv _ (osub o 1) 0 z T (osub_ok o 1 Ho) W) as (cs & y & E & _).
    pose proof (chain_process_stateless _ (osub o 1) 0 z Hsl) as Es. rewrite E in Es. simpl in Es. subst cs. eauto. }
  destruct join as [jev|]; simpl.
  - destruct (Hj jev eq_refl) as [Hj1 Hj2].
    assert (is_Some (join_snapshot (osub o 0) jev (length kinds) zs)) as [J EJ].
    { unfold join_snapshot. rewrite decide_True by (by rewrite Ld). apply cjoin_top_success; auto using osub_ok. by apply jev_total_good. }
    rewrite EJ. assert (WJ : zwf J).
    { unfold join_snapshot in EJ. case_decide; [|done]. by apply cjoin_top in EJ as [? _]; auto using osub_ok. }
    destruct (G J WJ) as [y ->]. eauto.
  - destruct zs as [|z zs]; [destruct kinds; [done|simpl in Ld; lia]|]. apply Forall_cons in Wz as [Wz _]. destruct (G z Wz) as [y ->]. eauto.
Qed.
End misc.
