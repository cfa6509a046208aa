(** Correctness of the optimized incremental graph (C13). *)
From Verif Require Import ZSetModel OpsModel ExecModel ZSetSpec ZSetProofs ZSetProofs2 OpsSpec OpsProofs ExecSpec StreamProofs JoinProofs ChainProofs ChainProofs2 OptProofs.

Section incr.
Context {DD : Docs}.
Variable sortv : list val -> list val.
Local Notation process := (process sortv).
Local Notation op_stream := (op_stream sortv).
Local Notation chain_stream := (chain_stream sortv).
Local Notation scratch := (scratch sortv).
Local Notation chain_process := (chain_process sortv).
Local Notation exec_process := (exec_process sortv).
Local Notation exec_run := (exec_run sortv).
Local Notation exec_scratch := (exec_scratch sortv).
Local Notation op_det := (op_det sortv).

Lemma is_total_eq A zs zs' : is_total A zs -> Forall2 zeq zs zs' -> is_total A zs'.
Proof.
  intros [W M] F. split; [done|]. intros k. rewrite M. clear M. unfold total.
  induction F as [|z z' zs zs' E F IH]; simpl; [done|]. by rewrite (E k), IH.
Qed.
Lemma stream_rep p zs ys : stateless p -> op_stream p zs ys ->
  exists zs', Forall2 zeq zs zs' /\ Forall zwf zs' /\ Forall2 (fun z y => exists o, order_ok o /\ (process o p z).2 = Some y) zs' ys.
Proof.
  intros S H. apply op_stream_stateless in H; [|done].
  induction H as [|z y zs ys (o & z' & Ho & W & E & P) F (zs' & F1 & F2 & F3)]; [exists []; split_and!; constructor|].
  exists (z' :: zs'). split_and!; constructor; eauto.
Qed.

Lemma stage_linear f ev p zs ys A : (forall o z, (process o p z).2 = f o z) -> stateless p -> linear_ext f ev -> ev_ok ev ->
  op_stream p zs ys -> is_total A zs -> exists B, (process std_order p A).2 = Some B /\ is_total B ys.
Proof.
  intros Ef Sp L Hev H HA. destruct (stream_rep p zs ys Sp H) as (zs' & F1 & F2 & F3).
  rewrite Ef. eapply (linear_stream f ev L Hev zs'); eauto using std_order_ok.
  - by eapply is_total_eq.
  - eapply Forall2_impl; [exact F3|]. intros z y (o & Ho & E). exists o. by rewrite <- Ef.
Qed.

Lemma int_stream_last p zs ys : op_stream p zs ys -> forall s, p = OInt s -> zwf s ->
  forall k, zcount (List.last ys s) k = zcount s k + total zs k.
Proof.
  induction 1 as [|o p z z' p1 y zs ys Ho W E P H IH]; intros s -> Ws k.
  - simpl. unfold total; simpl. lia.
  - destruct (int_step sortv o s z') as (s' & E' & Ws' & Ms); auto. rewrite E' in P. injection P as <- <-.
    rewrite total_cons, last_cons_default, (IH s' eq_refl Ws'), Ms, (E k). lia.
Qed.
Lemma diff_stream_total p zs ys : op_stream p zs ys -> forall s, p = ODiff s -> zwf s ->
  forall k, total ys k = zcount (List.last zs s) k - zcount s k.
Proof.
  induction 1 as [|o p z z' p1 y zs ys Ho W E P H IH]; intros s -> Ws k.
  - simpl. unfold total; simpl. lia.
  - destruct (diff_step sortv o s z') as (y' & E' & Wy & My); auto. rewrite E' in P. injection P as <- <-.
    rewrite total_cons, (IH z' eq_refl W), My, last_cons_default.
    destruct zs as [|z0 zs]; [simpl; rewrite (E k); lia|]. rewrite !last_cons_default. lia.
Qed.

Lemma stage_lifted F zs m1 m2 outs A : is_nonlinear F = true ->
  op_stream new_integrator zs m1 -> op_stream F m1 m2 -> op_stream new_differentiator m2 outs -> is_total A zs ->
  exists o a y, order_ok o /\ zwf a /\ zeq A a /\ (process o F a).2 = Some y /\ is_total y outs.
Proof.
  intros Hn R1 R2 R3 [WA MA].
  pose proof (int_stream_last _ _ _ R1 zempty eq_refl wf_empty) as M1.
  pose proof (diff_stream_total _ _ _ R3 zempty eq_refl wf_empty) as M3.
  assert (Wm2 : Forall zwf m2) by (eapply op_stream_wf; [exact R2|by destruct F]).
  destruct (stream_rep F m1 m2 (nonlinear_stateless F Hn) R2) as (m1' & F1 & F2 & F3).
  destruct m1' as [|x m1' _] using rev_ind.
  - inversion F1; subst. inversion F3; subst. simpl in *.
    destruct (process_zero sortv std_order F zempty) as (y & Ey & Wy & My); auto using std_order_ok, wf_empty, mult_empty.
    exists std_order, zempty, y. split_and!; auto using std_order_ok, wf_empty.
    + intros k. rewrite MA. rewrite mult_empty. specialize (M1 k). rewrite mult_empty in M1. lia.
    + split; [done|]. intros k. rewrite My, M3. lia.
  - apply Forall2_app_inv_r in F1 as (m1a & m1b & _ & F1 & ->). inversion F1 as [|x0 ? ? ? Ex F1']; subst. inversion F1'; subst.
    apply Forall2_app_inv_l in F3 as (m2a & m2b & _ & F3 & ->).
    inversion F3 as [|? y ? ? (o & Ho & Ey) F3']; subst. inversion F3'; subst.
    exists o, x, y. rewrite last_last in M1, M3. split_and!; try done.
    + apply Forall_app in F2 as [_ F2]. by apply Forall_cons in F2 as [? _].
    + intros k. rewrite MA, <- (Ex k), M1, mult_empty. lia.
    + split.
      * apply Forall_app in Wm2 as [_ Wm2]. by apply Forall_cons in Wm2 as [? _].
      * intros k. rewrite M3, mult_empty. lia.
Qed.

Lemma lifted_chain_correct ps : Forall op_ok ps -> forall zs outs A, Forall zwf zs ->
  chain_stream (lift (user_chain ps)) zs outs -> is_total A zs ->
  exists B, scratch ps A B /\ is_total B outs.
Proof.
  induction 1 as [|p ps Hp Hps IH]; intros zs outs A Wz H HA.
  - simpl in H. exists A. split; [constructor; [apply HA|done]|]. eapply is_total_eq; [exact HA|].
    clear -H. induction H as [|? ? ? ? [? ?]]; constructor; done.
  - change (user_chain (p :: ps)) with (CNode p false :: user_chain ps) in H. rewrite lift_cons in H. simpl in H.
    assert (Hlin : is_nonlinear p = false -> (exists f ev, (forall o z, (process o p z).2 = f o z) /\ linear_ext f ev /\ ev_ok ev) -> stateless p ->
      exists B, scratch (p :: ps) A B /\ is_total B outs).
    { intros Hn (f & ev & Ef & L & Hev) Sp. rewrite Hn in H. simpl in H. destruct H as (m & H1 & H2).
      destruct (stage_linear f ev p zs m A Ef Sp L Hev H1 HA) as (B1 & E1 & T1).
      destruct (IH m outs B1) as (B & Hs & T); auto.
      { eapply op_stream_wf; [exact H1|]. by destruct p. }
      exists B. split; [|done]. eapply (scratch_cons sortv std_order p ps A A B1 B); auto using std_order_ok; [apply HA|done]. }
    assert (Hnl : is_nonlinear p = true -> exists B, scratch (p :: ps) A B /\ is_total B outs).
    { intros Hn. rewrite Hn in H. simpl in H. destruct H as (m1 & H1 & m2 & H2 & m3 & H3 & H4).
      destruct (stage_lifted p zs m1 m2 m3 A Hn H1 H2 H3 HA) as (o & a & y & Ho & Wa & Ea & Ey & Ty).
      destruct (IH m3 outs y) as (B & Hs & T); auto.
      { eapply op_stream_wf; [exact H3|]. apply wf_empty. }
      exists B. split; [|done]. eapply (scratch_cons sortv o p ps A a y B); auto. }
    destruct p; try done; try (by apply Hnl); apply Hlin; try done.
    + exists (fun o => project o ev), ev. split; [done|]. split; [apply project_linear|apply Hp].
    + exists (fun o => select o ev), ev. split; [done|]. split; [apply select_linear|apply Hp].
    + exists (fun o => unwind o ex tr), (unwind_ev ex tr). split; [done|]. split; [apply unwind_linear|apply Hp].
Qed.

(** Rewriting preserves the side conditions. *)
Lemma lift_ops (P : op -> Prop) cs : P new_integrator -> P new_differentiator -> Forall P (map cn_op cs) -> Forall P (map cn_op (lift cs)).
Proof.
  intros P1 P2. induction cs as [|c cs IH]; intros H; [constructor|]. rewrite lift_cons, map_app.
  simpl in H. apply Forall_cons in H as [Hc H]. apply Forall_app. split; [|auto].
  destruct (is_nonlinear (cn_op c) && negb (cn_lifted c)); simpl; repeat apply Forall_cons_2; try done; constructor.
Qed.
Lemma span_projs_forall (P : op -> Prop) cs evs r : span_projs cs = (evs, r) -> Forall P (map cn_op cs) ->
  Forall (fun ev => P (OProject ev)) evs /\ Forall P (map cn_op r).
Proof.
  intros E H. destruct (span_projs_spec cs evs r E) as (E1 & _ & _). rewrite E1 in H.
  apply Forall_app in H as [H1 H2]. split; [|done]. by rewrite Forall_projs in H1.
Qed.
Lemma fuse_sel_projs_ops (P : op -> Prop) n :
  (forall se evs, P (OSelect se) -> Forall (fun ev => P (OProject ev)) evs -> P (OSelProjs (Some se) evs)) ->
  (forall evs, Forall (fun ev => P (OProject ev)) evs -> P (OSelProjs None evs)) ->
  forall cs, Forall P (map cn_op cs) -> Forall P (map cn_op (fuse_sel_projs n cs)).
Proof.
  intros P1 P2. induction n as [|n IH]; intros cs H; [done|]. destruct cs as [|c l]; [done|].
  simpl in H. apply Forall_cons in H as [Hc Hl]. simpl.
  assert (Hdef : Forall P (map cn_op (c :: fuse_sel_projs n l))) by (simpl; constructor; auto).
  destruct (cn_op c) eqn:Ec; try exact Hdef; destruct (span_projs l) as [[|e0 evs] r] eqn:Es; try exact Hdef;
    destruct (span_projs_forall P l _ _ Es Hl) as [He Hr]; simpl; constructor; auto; try (apply P1; done); try (apply P2; by constructor).
Qed.
Lemma evs_ok_fused n cs : Forall evs_ok (map cn_op cs) -> Forall evs_ok (map cn_op (fuse_sel_projs n cs)).
Proof. apply fuse_sel_projs_ops; simpl; [by intros|by intros]. Qed.
Lemma op_wf_fused n cs : Forall op_wf (map cn_op cs) -> Forall op_wf (map cn_op (fuse_sel_projs n cs)).
Proof. apply fuse_sel_projs_ops; simpl; by intros. Qed.

Lemma op_ok_evs p : op_ok p -> evs_ok p.
Proof. destruct p; simpl; tauto. Qed.
Lemma op_ok_wf p : op_ok p -> op_wf p.
Proof. by destruct p. Qed.
Lemma opt_chain_stream ps zs outs : Forall op_ok ps -> Forall zwf zs ->
  chain_stream (opt_chain (user_chain ps)) zs outs -> chain_stream (lift (user_chain ps)) zs outs.
Proof.
  intros Hps Wz H. unfold opt_chain in H.
  assert (E0 : map cn_op (user_chain ps) = ps) by (unfold user_chain; by rewrite map_map, map_id).
  assert (H1 : Forall evs_ok (map cn_op (lift (user_chain ps)))).
  { apply lift_ops; [done|done|]. rewrite E0. eapply Forall_impl; [exact Hps|]. apply op_ok_evs. }
  assert (H2 : Forall op_wf (map cn_op (lift (user_chain ps)))).
  { apply lift_ops; [apply wf_empty|apply wf_empty|]. rewrite E0. eapply Forall_impl; [exact Hps|]. apply op_ok_wf. }
  apply fuse_proj_sel_sound in H; auto using evs_ok_fused, op_wf_fused.
  apply fuse_sel_projs_sound in H; auto.
Qed.

Lemma jrun_wf jev n prevs dss outs : jev_ok jev -> jrun (JInc jev n prevs) dss outs -> length prevs = n ->
  Forall zwf (map (default zempty) prevs) -> Forall (Forall zwf) dss -> Forall zwf outs.
Proof.
  intros Hj R. remember (JInc jev n prevs) as j eqn:Ej. revert prevs Ej.
  induction R as [j|o j ds j1 y dss ys Ho E R IH]; intros prevs -> L WP Wd; [constructor|].
  apply Forall_cons in Wd as [W1 Wd]. simpl in E. destruct (join_inc o jev n prevs ds) as [ps r] eqn:EJ. injection E as <- ->.
  assert (L1 : length ds = n).
  { unfold join_inc in EJ. case_decide; [done|by injection EJ]. }
  destruct (join_inc_step o jev n prevs ds ps (Some y) Ho Hj WP W1 L L1 EJ) as (Ps' & -> & WP' & HS & Wy & _ & _).
  constructor; [done|]. eapply IH; [done| | |done].
  - rewrite map_length. destruct HS as (HS & _). lia.
  - rewrite map_map. simpl. by rewrite map_id.
Qed.

(** ** The executor *)

Lemma mapM_wf names (i : gmap string zset) zs : map_Forall (fun _ z => zwf z) i -> mapM (fun n => i !! n) names = Some zs -> Forall zwf zs.
Proof.
  intros W. revert zs. induction names as [|n names IH]; simpl; intros zs E; [by injection E as <-|].
  destruct (i !! n) as [z|] eqn:En; [|done]. simpl in E. destruct (mapM _ names) as [zs'|]; [|done]. injection E as <-.
  constructor; [by eapply W|auto].
Qed.
Lemma mapM_lookup_nth names (i : gmap string zset) zs : mapM (fun n => i !! n) names = Some zs ->
  length zs = length names /\ forall m nm, names !! m = Some nm -> zs !! m = i !! nm.
Proof.
  revert zs. induction names as [|n names IH]; simpl; intros zs E; [injection E as <-; done|].
  destruct (i !! n) as [z|] eqn:En; [|done]. simpl in E. destruct (mapM _ names) as [zs'|]; [|done]. injection E as <-.
  destruct (IH zs' eq_refl) as [L H]. split; [simpl; lia|]. intros [|m] nm; simpl; [by intros [= ->]|apply H].
Qed.

Lemma exec_run_steps o : order_ok o -> forall ins n g g' outs,
  exec_run o n g ins = (g', map Some outs) -> exists dss zs,
  Forall2 (fun i ds => mapM (fun nm => i !! nm) (g_inputs g) = Some ds) ins dss
  /\ match g_join g with
     | Some j => jrun j dss zs
     | None => Forall2 (fun ds z => head ds = Some z) dss zs
     end
  /\ chain_steps sortv (g_chain g) zs outs.
Proof.
  intros Ho. induction ins as [|i ins IH]; intros n g g' outs E; simpl in E.
  - injection E as _ E. destruct outs; [|done]. exists [], []. split; [constructor|]. split; [|constructor].
    destruct (g_join g); constructor.
  - destruct (exec_process (osub o n) g i) as [g1 r] eqn:E1.
    destruct (exec_run o (S n) g1 ins) as [g2 rs] eqn:E2. destruct outs as [|y outs]; [done|]. simpl in E.
    injection E as -> -> ->. unfold ExecModel.exec_process in E1.
    destruct (negb _); [done|]. destruct (mapM (fun n0 => i !! n0) (g_inputs g)) as [ds|] eqn:Ed; [|done].
    destruct g as [names j cs]; simpl in *. destruct j as [j|].
    + destruct (jprocess (osub (osub o n) 0) j ds) as [j1 [z|]] eqn:Ej; [|done].
      destruct (chain_process (osub (osub o n) 1) 0 cs z) as [cs1 r1] eqn:Ec. injection E1 as <- ->.
      destruct (IH _ _ _ _ E2) as (dss & zs & F & J & C). simpl in *.
      exists (ds :: dss), (z :: zs). split_and!; [by constructor| |].
      * eapply jrun_cons; [apply osub_ok, osub_ok, Ho|exact Ej|exact J].
      * eapply cs_cons; [apply osub_ok, osub_ok, Ho|exact Ec|exact C].
    + destruct ds as [|z ds]; [done|].
      destruct (chain_process (osub (osub o n) 1) 0 cs z) as [cs1 r1] eqn:Ec. injection E1 as <- ->.
      destruct (IH _ _ _ _ E2) as (dss & zs & F & J & C). simpl in *.
      exists ((z :: ds) :: dss), (z :: zs). split_and!; [by constructor|by constructor|].
      eapply cs_cons; [apply osub_ok, osub_ok, Ho|exact Ec|exact C].
Qed.

Lemma acc_list kinds acc ins : accumulated acc kinds ins ->
  exists As, mapM (fun n => acc !! n) kinds = Some As /\ length As = length kinds /\ Forall zwf As
  /\ forall m nm a, kinds !! m = Some nm -> As !! m = Some a -> is_total a (column nm ins).
Proof.
  induction kinds as [|n kinds IH]; intros H; [exists []; split_and!; done|].
  destruct (H n) as (a & Ea & Ta); [by left|]. destruct IH as (As & E & L & W & T).
  { intros nm Hn. apply H. by right. }
  exists (a :: As). simpl. rewrite Ea, E. split_and!; [done|by rewrite L|constructor; [apply Ta|done]|].
  intros [|m] nm a'; simpl; [by intros [= <-] [= <-]|apply T].
Qed.
Lemma column_nth names m nm ins dss k : names !! m = Some nm ->
  Forall2 (fun i ds => mapM (fun nm => i !! nm) names = Some ds) ins dss ->
  total (column nm ins) k = lsum (fun ds => zcount (default zempty (ds !! m)) k) dss.
Proof.
  intros Hm F. unfold total, column. induction F as [|i ds ins dss E F IH]; simpl; [done|].
  rewrite IH. destruct (mapM_lookup_nth names i ds E) as [_ H]. by rewrite (H m nm Hm).
Qed.

Lemma chain_stream_wf cs : forall zs outs, chain_stream cs zs outs -> Forall zwf outs.
Proof.
  induction cs as [|c cs IH]; simpl; intros zs outs H; [|destruct H as (mid & _ & H); by eapply IH].
  induction H as [|z y zs outs [Hy _] H IH]; constructor; done.
Qed.
Lemma c13_core_wf kinds join ps g g1 o ins outs g' acc :
  pipeline_graph kinds join ps = Some g -> pipeline_new kinds join ps = Some g1 ->
  kinds <> [] -> NoDup kinds -> forallb user_op ps = true -> Forall op_ok ps ->
  (forall jev, join = Some jev -> jev_ok jev) ->
  order_ok o -> ins_wf ins -> exec_run o 0 g1 ins = (g', map Some outs) ->
  accumulated acc kinds ins ->
  exists B, exec_scratch g acc B /\ is_total B outs /\ Forall zwf outs.
Proof.
  intros Hg Hg1 Hk ND Hu Hok Hj Ho Wi R Hacc.
  destruct (c12_optimize kinds join ps g Hg Hu Hk) as (Eo & _ & En).
  rewrite En in Hg1. injection Hg1 as <-. rewrite Eo in R. cbn [fst] in R. clear Eo En.
  pose proof (pipeline_graph_eq _ _ _ _ Hg) as ->. cbn [g_inputs g_join g_chain] in R.
  assert (EI : input_names kinds = kinds).
  { unfold input_names. rewrite add_inputs_nodup by done. done. }
  rewrite EI in *.
  destruct (exec_run_steps o Ho _ _ _ _ _ R) as (dss & zs & F & J & C). cbn [g_inputs g_join g_chain] in *.
  assert (Wd : Forall (Forall zwf) dss).
  { clear -F Wi. induction F as [|i ds ins dss E F IH]; [constructor|]. apply Forall_cons in Wi as [W1 W2].
    constructor; [by eapply mapM_wf|auto]. }
  destruct (acc_list kinds acc ins Hacc) as (As & EA & LA & WA & TA).
  assert (exists JA, (match (fun jev => new_join jev (length kinds)) <$> join with
       | None => head As = Some JA
       | Some (JSnap jev n) => exists o, order_ok o /\ join_snapshot o jev n As = Some JA
       | _ => False
       end) /\ is_total JA zs /\ Forall zwf zs) as (JA & HJ & TJ & Wz).
  { destruct join as [jev|]; simpl in *.
    - destruct (join_inc_stream jev (length kinds) dss zs As std_order) as (y & Ey & Ty & _); auto using std_order_ok.
      + destruct kinds; [done|simpl; lia].
      + intros m a Ha k. destruct (kinds !! m) as [nm|] eqn:Em.
        * destruct (TA m nm a Em Ha) as [_ ->]. by eapply column_nth.
        * apply lookup_ge_None in Em. apply lookup_lt_Some in Ha. lia.
      + exists y. split; [exists std_order; split; [apply std_order_ok|exact Ey]|]. split; [done|].
        clear -J Wd Hj. unfold new_inc_join in J. eapply jrun_wf; eauto using repeat_length.
        apply Forall_forall. intros x Hx. apply elem_of_list_In, in_map_iff in Hx as (x' & <- & Hx).
        apply repeat_spec in Hx as ->. apply wf_empty.
    - destruct kinds as [|k0 kinds]; [done|]. simpl in EA. destruct (Hacc k0) as (a & Ea & Ta); [by left|].
      rewrite Ea in EA. simpl in EA. destruct (mapM _ kinds) as [As'|]; [|done]. injection EA as <-.
      exists a. split; [done|]. split.
      + eapply is_total_eq; [exact Ta|]. clear -F J. revert zs J. induction F as [|i ds ins dss E F IH]; intros zs J; inversion J as [|? ? ? ? Hh J']; subst; [constructor|].
        simpl. constructor; [|auto]. simpl in E. destruct (i !! k0) as [z|] eqn:Ei; [|done]. simpl in E.
        destruct (mapM _ kinds); [|done]. injection E as <-. simpl in Hh. injection Hh as <-. done.
      + clear -J Wd. induction J as [|ds z dss zs E J IH]; [constructor|]. apply Forall_cons in Wd as [W1 W2].
        constructor; [|auto]. destruct ds; [done|]. injection E as ->. by apply Forall_cons in W1 as [? _]. }
  assert (C' : chain_stream (opt_chain (user_chain ps)) zs outs).
  { eapply chain_steps_stream; [exact C| |done].
    assert (E0 : map cn_op (user_chain ps) = ps) by (unfold user_chain; by rewrite map_map, map_id).
    assert (H2 : Forall op_wf (map cn_op (lift (user_chain ps)))).
    { apply lift_ops; [apply wf_empty|apply wf_empty|]. rewrite E0. eapply Forall_impl; [exact Hok|]. apply op_ok_wf. }
    apply (op_wf_fused (length (lift (user_chain ps)))) in H2. unfold opt_chain.
    rewrite List.Forall_forall in H2 |- *. intros p Hp. apply in_map_iff in Hp as (c & <- & Hc).
    apply fuse_proj_sel_in in Hc as [Hc|Hc]; [apply H2, in_map_iff; eauto|]. by destruct (cn_op c). }
  apply opt_chain_stream in C'; [|done|done].
  destruct (lifted_chain_correct ps Hok zs outs JA Wz C' TJ) as (B & HB & TB).
  exists B. split; [|split; [done|by eapply chain_stream_wf]]. exists As, JA. split; [done|]. split; [done|].
  cbn [g_chain]. unfold user_chain. by rewrite map_map, map_id.
Qed.
Lemma c13_core kinds join ps g g1 o ins outs g' acc :
  pipeline_graph kinds join ps = Some g -> pipeline_new kinds join ps = Some g1 ->
  kinds <> [] -> NoDup kinds -> forallb user_op ps = true -> Forall op_ok ps ->
  (forall jev, join = Some jev -> jev_ok jev) ->
  order_ok o -> ins_wf ins -> exec_run o 0 g1 ins = (g', map Some outs) ->
  accumulated acc kinds ins ->
  exists B, exec_scratch g acc B /\ is_total B outs.
Proof.
  intros H1 H2 H3 H4 H5 H6 H7 H8 H9 H10 H11.
  destruct (c13_core_wf kinds join ps g g1 o ins outs g' acc) as (B & ? & ? & _); auto. by exists B.
Qed.
End incr.
