(** Determinism of pipelines with @gather on accumulated inputs without negative
    multiplicities. *)
From Verif Require Import ZSetModel OpsModel ExecModel ZSetSpec ZSetProofs ZSetProofs2 OpsSpec OpsProofs GatherSpec ExecSpec StreamProofs JoinProofs ChainProofs ChainProofs2 OptProofs IncrProofs IncrProofs2 GatherProofs.

Section det.
Context {DD : Docs}.
Variable sortv : list val -> list val.
Local Notation process := (process sortv).
Local Notation chain_process := (chain_process sortv).
Local Notation exec_process := (exec_process sortv).
Local Notation exec_run := (exec_run sortv).
Local Notation exec_scratch := (exec_scratch sortv).
Local Notation scratch := (scratch sortv).
Local Notation op_posdet := (op_posdet sortv).

Lemma op_det_posdet p : op_det sortv p -> op_posdet p.
Proof. intros H o1 o2 a b ? ? ? ? ? _. by apply H. Qed.
Lemma posdet_gather kx vx agg : ext_ok kx -> ext_ok vx -> sort_canon sortv -> agg_const kx agg -> op_posdet (OGather kx vx agg).
Proof. intros Hk Hv HS HA o1 o2 a b H1 H2 Wa Wb E N. simpl. by apply c10_det. Qed.

Lemma occ_nonneg k l : 0 <= occ k l.
Proof. unfold occ. induction l as [|d l IH]; simpl; [lia|]. case_decide; lia. Qed.
Lemma zsum_nonneg g z : nonneg z -> (forall d, 0 <= g d) -> 0 <= zsum g z.
Proof.
  intros N Hg. unfold zsum. induction (map_to_list (docs z)) as [|[k d] l IH]; simpl; [lia|].
  specialize (N k). specialize (Hg d). nia.
Qed.
Lemma linear_nonneg f ev o z y : linear_ext f ev -> order_ok o -> zwf z -> nonneg z -> f o z = Some y -> nonneg y.
Proof.
  intros L Ho W N E k. destruct (L o z Ho W) as [_ H]. destruct (H y E) as [_ ->]. apply zsum_nonneg; [done|]. intros d. apply occ_nonneg.
Qed.
Lemma process_nonneg p o z p' y : user_op p = true -> order_ok o -> zwf z -> nonneg z -> process o p z = (p', Some y) -> nonneg y.
Proof.
  intros Hu Ho W N. destruct p; try done; simpl; intros [= _ E].
  - eapply (linear_nonneg (fun o => project o ev) ev o z); eauto. apply project_linear.
  - eapply (linear_nonneg (fun o => select o ev) ev o z); eauto. apply select_linear.
  - eapply (linear_nonneg (fun o => unwind o ex tr) (unwind_ev ex tr) o z); eauto. apply unwind_linear.
  - apply c10_groups in E as (_ & outs & _ & _ & _ & M); try done. intros k. rewrite M. apply occ_nonneg.
Qed.
Lemma nonneg_eq a b : zeq a b -> nonneg a -> nonneg b.
Proof. intros E N k. rewrite <- (E k). apply N. Qed.

Lemma scratch_run_pos ps : Forall op_posdet ps -> forallb user_op ps = true -> forall A B, scratch ps A B ->
  forall A' o n, zeq A A' -> zwf A' -> nonneg A' -> order_ok o ->
  exists B', chain_process o n (user_chain ps) A' = (user_chain ps, Some B') /\ zeq B B' /\ zwf B' /\ nonneg B'.
Proof.
  induction 1 as [|p ps Hp Hps IH]; intros Hu A B HS A' o n E W N Ho; inversion HS; subst.
  - exists A'. simpl. split_and!; try done. etrans; [symmetry; eassumption|done].
  - simpl in Hu. apply andb_prop in Hu as [Hu Hus].
    match goal with H1 : (process ?o1 p ?x1).2 = Some ?y1, H2 : zeq A ?x1, H3 : zwf ?x1, H4 : order_ok ?o1, H5 : scratch ps ?y1 B |- _ =>
      rename o1 into o1', x1 into x, y1 into y, H1 into EP, H2 into EX, H3 into WX, H4 into HO1, H5 into HSS end.
    assert (EX' : zeq x A') by (etrans; [symmetry; exact EX|exact E]).
    pose proof (Hp o1' (osub o n) x A' HO1 (osub_ok o n Ho) WX W EX' (nonneg_eq _ _ (symmetry EX') N)) as R.
    rewrite EP in R. cbn [user_chain map ExecModel.chain_process cn_op cn_lifted]. fold (user_chain ps).
    pose proof (stateless_step sortv (osub o n) p A') as ST.
    destruct (process (osub o n) p A') as [p1 [y'|]] eqn:P; [|done]. simpl in R, ST.
    rewrite ST by (by destruct p).
    destruct (process_wf sortv (osub o n) p A' p1 (Some y') (osub_ok o n Ho)) as [_ Wy]; [by destruct p|done|done|].
    pose proof (process_nonneg p (osub o n) A' p1 y' Hu (osub_ok o n Ho) W N P) as Ny.
    destruct (IH Hus y B HSS y' o (S n) R (Wy y' eq_refl) Ny Ho) as (B' & -> & HB). exists B'. done.
Qed.

Lemma join_nonneg o jev n zs J : order_ok o -> Forall zwf zs -> Forall nonneg zs -> join_snapshot o jev n zs = Some J -> nonneg J /\ zwf J.
Proof.
  intros Ho W N E. unfold join_snapshot in E. case_decide; [|done]. apply cjoin_top in E as [WJ M]; auto. split; [|done].
  intros k. rewrite M. unfold join_mult.
  assert (P : forall t w, In (t, w) (tuples (map zents zs)) -> 0 <= w).
  { clear -N. induction N as [|z zs Nz N IH]; simpl; intros t w Hin; [destruct Hin as [[= <- <-]|[]]; lia|].
    apply in_flat_map in Hin as ([d c] & Hd & Hin). apply in_map_iff in Hin as ([t' w'] & [= <- <-] & Hin).
    specialize (IH _ _ Hin). unfold zents in Hd. apply in_map_iff in Hd as ([k d'] & [= <- <-] & _). simpl. specialize (Nz k). nia. }
  induction (tuples (map zents zs)) as [|[t w] l IH]; simpl; [lia|].
  pose proof (P t w (or_introl eq_refl)). pose proof (occ_nonneg k (default [] (jev t))).
  assert (0 <= lsum (fun t0 : list doc * Z => t0.2 * occ k (default [] (jev t0.1))) l) by (apply IH; intros; eapply P; by right). nia.
Qed.

Lemma exec_scratch_run_pos kinds join ps g acc B o :
  pipeline_graph kinds join ps = Some g -> forallb user_op ps = true -> Forall op_posdet ps ->
  (forall jev, join = Some jev -> jev_ok jev) ->
  order_ok o -> map_Forall (fun _ z => zwf z /\ nonneg z) acc -> size acc = length (g_inputs g) ->
  exec_scratch g acc B -> exists B', exec_process o g acc = (g, Some B') /\ zeq B B' /\ zwf B' /\ nonneg B'.
Proof.
  intros Hg Hu Hd Hj Ho Wa Hsz (zs & J & Em & HJ & HS). pose proof (pipeline_graph_eq _ _ _ _ Hg) as ->.
  cbn [g_inputs g_join g_chain] in *.
  assert (E0 : map cn_op (user_chain ps) = ps) by (unfold user_chain; by rewrite map_map, map_id). rewrite E0 in HS.
  assert (Wz : Forall zwf zs). { eapply mapM_wf; [|exact Em]. intros k z Hz. by apply (Wa k z). }
  assert (Nz : Forall nonneg zs).
  { apply List.Forall_forall. intros z Hz. apply mapM_in in Em as [_ Em]. apply Em in Hz as (nm & _ & Hz). by apply (Wa nm z). }
  unfold ExecModel.exec_process. cbn [g_inputs g_join g_chain]. rewrite Hsz, Nat.eqb_refl, Em. cbn [negb].
  destruct join as [jev|]; cbn [fmap option_fmap option_map] in *.
  - destruct HJ as (o1 & Ho1 & HJ). simpl.
    pose proof (join_snapshot_order jev (length kinds) o1 (osub o 0) zs zs (Hj jev eq_refl) Ho1 (osub_ok o 0 Ho) Wz Wz (zeq_list_refl zs)) as HR.
    rewrite HJ in HR. simpl in HR. destruct (join_snapshot (osub o 0) jev (length kinds) zs) as [J'|] eqn:EJ; [|done].
    destruct (join_nonneg _ _ _ _ _ (osub_ok o 0 Ho) Wz Nz EJ) as [NJ WJ].
    destruct (scratch_run_pos ps Hd Hu J B HS J' (osub o 1) 0%nat) as (B' & -> & HB); auto using osub_ok.
    exists B'. done.
  - destruct zs as [|z zs]; [done|]. simpl in HJ. injection HJ as ->. apply Forall_cons in Wz as [Wz _]. apply Forall_cons in Nz as [Nz _].
    destruct (scratch_run_pos ps Hd Hu J B HS J (osub o 1) 0%nat) as (B' & -> & HB); auto using osub_ok. done.
    exists B'. done.
Qed.

Lemma c13_posdet kinds join ps g g1 o ins outs g' acc o' :
  pipeline_graph kinds join ps = Some g -> pipeline_new kinds join ps = Some g1 ->
  kinds <> [] -> NoDup kinds -> forallb user_op ps = true -> Forall op_ok ps -> Forall op_posdet ps ->
  (forall jev, join = Some jev -> jev_ok jev) ->
  order_ok o -> order_ok o' -> ins_wf ins -> exec_run o 0 g1 ins = (g', map Some outs) ->
  accumulated acc kinds ins -> map_Forall (fun _ z => zwf z /\ nonneg z) acc -> size acc = length kinds ->
  exists B, exec_process o' g acc = (g, Some B) /\ is_total B outs /\ nonneg B.
Proof.
  intros Hg Hg1 Hk ND Hu Hok Hd Hj Ho Ho' Wi R Hacc Wacc Hsz.
  destruct (c13_core sortv kinds join ps g g1 o ins outs g' acc) as (B & HB & TB); auto.
  destruct (exec_scratch_run_pos kinds join ps g acc B o') as (B' & E & EB & WB & NB); auto.
  { rewrite (pipeline_graph_eq _ _ _ _ Hg). cbn [g_inputs]. unfold input_names. rewrite add_inputs_nodup by done. done. }
  exists B'. split; [done|]. split; [|done]. split; [done|]. intros k. rewrite <- (EB k). apply TB.
Qed.
End det.
