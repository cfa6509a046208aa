(** Consequences of incremental correctness: deterministic pipelines, pipelines
    that cannot fail, failures, reset, snapshot conversion. *)
From Verif Require Import ZSetModel OpsModel ExecModel ZSetSpec ZSetProofs ZSetProofs2 OpsSpec OpsProofs ExecSpec StreamProofs JoinProofs ChainProofs ChainProofs2 OptProofs IncrProofs.

Section incr2.
Context {DD : Docs}.
Variable sortv : list val -> list val.
Local Notation process := (process sortv).
Local Notation op_stream := (op_stream sortv).
Local Notation chain_stream := (chain_stream sortv).
Local Notation scratch := (scratch sortv).
Local Notation chain_process := (chain_process sortv).
Local Notation exec_process := (exec_process sortv).
Local Notation exec_run := (exec_run sortv).
Local Notation exec_scratch := (exec_scratch sortv).
Local Notation op_det := (op_det sortv).

(** Running the graph as written computes [exec_scratch]. *)
Lemma chain_process_scratch ps : forall o n z cs y, Forall stateless ps -> order_ok o -> zwf z ->
  chain_process o n (user_chain ps) z = (cs, Some y) -> cs = user_chain ps /\ scratch ps z y.
Proof.
  induction ps as [|p ps IH]; simpl; intros o n z cs y Hs Ho W E.
  - injection E as <- <-. split; [done|]. by constructor.
  - apply Forall_cons in Hs as [Sp Sps]. pose proof (stateless_step sortv (osub o n) p z Sp) as Ep.
    destruct (process (osub o n) p z) as [p1 [m|]] eqn:P; [|done]. simpl in Ep. subst p1.
    destruct (chain_process o (S n) (user_chain ps) m) as [cs1 r] eqn:Ec. injection E as <- ->.
    assert (Wm : zwf m). { eapply (process_wf sortv (osub o n) p z); eauto using osub_ok. by destruct p. }
    destruct (IH o (S n) m cs1 y Sps Ho Wm Ec) as [-> Hsc]. split; [done|].
    eapply (scratch_cons sortv (osub o n) p ps z z m y); auto using osub_ok; [done|]. by rewrite P.
Qed.
Lemma user_op_stateless ps : forallb user_op ps = true -> Forall stateless ps.
Proof. intros H. induction ps as [|p ps IH]; [constructor|]. simpl in H. apply andb_prop in H as [Hp H]. constructor; [by destruct p|auto]. Qed.

Lemma exec_scratch_adequate kinds join ps g o acc g' y :
  pipeline_graph kinds join ps = Some g -> forallb user_op ps = true -> (forall jev, join = Some jev -> jev_ok jev) ->
  order_ok o -> map_Forall (fun _ z => zwf z) acc ->
  exec_process o g acc = (g', Some y) -> g' = g /\ exec_scratch g acc y.
Proof.
  intros Hg Hu Hj Ho Wa E. pose proof (pipeline_graph_eq _ _ _ _ Hg) as ->. apply user_op_stateless in Hu.
  unfold ExecModel.exec_process in E. destruct (negb _); [done|]. cbn [g_inputs g_join g_chain] in *.
  destruct (mapM (fun n => acc !! n) (input_names kinds)) as [zs|] eqn:Em; [|done].
  assert (Wz : Forall zwf zs) by by eapply mapM_wf.
  assert (E0 : map cn_op (user_chain ps) = ps) by (unfold user_chain; by rewrite map_map, map_id).
  destruct join as [jev|]; simpl in E.
  - destruct (join_snapshot (osub o 0) jev (length kinds) zs) as [J|] eqn:EJ; [|done].
    destruct (chain_process (osub o 1) 0 (user_chain ps) J) as [cs r] eqn:Ec. injection E as <- ->.
    assert (WJ : zwf J).
    { unfold join_snapshot in EJ. case_decide; [|done]. by apply cjoin_top in EJ as [? _]; auto using osub_ok. }
    apply chain_process_scratch in Ec as [-> Hs]; auto using osub_ok. split; [done|].
    exists zs, J. cbn [g_inputs g_join g_chain]. rewrite E0. split_and!; try done. exists (osub o 0). auto using osub_ok.
  - destruct zs as [|z zs]; [done|]. apply Forall_cons in Wz as [Wz _].
    destruct (chain_process (osub o 1) 0 (user_chain ps) z) as [cs r] eqn:Ec. injection E as <- ->.
    apply chain_process_scratch in Ec as [-> Hs]; auto using osub_ok. split; [done|].
    exists (z :: zs), z. cbn [g_inputs g_join g_chain]. rewrite E0. split_and!; done.
Qed.

(** Deterministic stages: every run gives the result. *)
Lemma scratch_run ps : Forall op_det ps -> Forall stateless ps -> forall A B, scratch ps A B -> zwf A ->
  forall o n, order_ok o -> exists B', chain_process o n (user_chain ps) A = (user_chain ps, Some B') /\ zeq B B' /\ zwf B'.
Proof.
  intros Hd Hs A B HS WA o n Ho.
  assert (HC : chain_stream (user_chain ps) [A] [B]) by (apply chain_stream_stateless; [done|]; by constructor).
  apply chain_stream_uncons in HC as (y & ys & cs1 & [= <- <-] & Hst & _).
  destruct (chain_sim_step sortv _ _ _ _ Hst (user_chain ps) A o n) as (cs1' & y' & E & Ey & Wy & _); auto; [|done|].
  - apply chain_sim_refl. unfold user_chain. rewrite map_map, map_id.
    clear -Hd Hs. induction Hd; constructor; auto; [|apply IHHd; by apply Forall_cons in Hs as [_ ?]].
    apply Forall_cons in Hs as [Hs _]. by destruct x.
  - exists y'. split; [|done]. rewrite E. f_equal. by eapply chain_process_scratch in E as [? _].
Qed.
Lemma exec_scratch_run kinds join ps g acc B o :
  pipeline_graph kinds join ps = Some g -> forallb user_op ps = true -> Forall op_det ps ->
  (forall jev, join = Some jev -> jev_ok jev) ->
  order_ok o -> map_Forall (fun _ z => zwf z) acc -> size acc = length (g_inputs g) ->
  exec_scratch g acc B -> exists B', exec_process o g acc = (g, Some B') /\ zeq B B' /\ zwf B'.
Proof.
  intros Hg Hu Hd Hj Ho Wa Hsz (zs & J & Em & HJ & HS). pose proof (pipeline_graph_eq _ _ _ _ Hg) as ->.
  apply user_op_stateless in Hu. cbn [g_inputs g_join g_chain] in *.
  assert (E0 : map cn_op (user_chain ps) = ps) by (unfold user_chain; by rewrite map_map, map_id). rewrite E0 in HS.
  assert (Wz : Forall zwf zs) by by eapply mapM_wf.
  unfold ExecModel.exec_process. cbn [g_inputs g_join g_chain]. rewrite Hsz, Nat.eqb_refl, Em. cbn [negb].
  destruct join as [jev|]; cbn [fmap option_fmap option_map] in *.
  - destruct HJ as (o1 & Ho1 & HJ). simpl.
    pose proof (join_snapshot_order jev (length kinds) o1 (osub o 0) zs zs (Hj jev eq_refl) Ho1 (osub_ok o 0 Ho) Wz Wz (zeq_list_refl zs)) as HR.
    rewrite HJ in HR. simpl in HR. destruct (join_snapshot (osub o 0) jev (length kinds) zs) as [J'|] eqn:EJ; [|done].
    assert (WJ : zwf J').
    { unfold join_snapshot in EJ. case_decide; [|done]. by apply cjoin_top in EJ as [? _]; auto using osub_ok. }
    destruct (scratch_run ps Hd Hu J' B (scratch_eq_l sortv ps J J' B HS HR) WJ (osub o 1) 0%nat) as (B' & -> & E & W); auto using osub_ok.
    exists B'. done.
  - destruct zs as [|z zs]; [done|]. simpl in HJ. injection HJ as ->. apply Forall_cons in Wz as [Wz _].
    destruct (scratch_run ps Hd Hu J B HS Wz (osub o 1) 0%nat) as (B' & -> & E & W); auto using osub_ok.
    exists B'. done.
Qed.

Lemma c13_det kinds join ps g g1 o ins outs g' acc o' :
  pipeline_graph kinds join ps = Some g -> pipeline_new kinds join ps = Some g1 ->
  kinds <> [] -> NoDup kinds -> forallb user_op ps = true -> Forall op_ok ps -> Forall op_det ps ->
  (forall jev, join = Some jev -> jev_ok jev) ->
  order_ok o -> order_ok o' -> ins_wf ins -> exec_run o 0 g1 ins = (g', map Some outs) ->
  accumulated acc kinds ins -> map_Forall (fun _ z => zwf z) acc -> size acc = length kinds ->
  exists B, exec_process o' g acc = (g, Some B) /\ is_total B outs.
Proof.
  intros Hg Hg1 Hk ND Hu Hok Hd Hj Ho Ho' Wi R Hacc Wacc Hsz.
  destruct (c13_core sortv kinds join ps g g1 o ins outs g' acc) as (B & HB & TB); auto.
  destruct (exec_scratch_run kinds join ps g acc B o') as (B' & E & EB & WB); auto.
  { rewrite (pipeline_graph_eq _ _ _ _ Hg). cbn [g_inputs]. unfold input_names. rewrite add_inputs_nodup by done. done. }
  exists B'. split; [done|]. split; [done|]. intros k. rewrite <- (EB k). apply TB.
Qed.

(** ** Pipelines whose user code cannot fail *)
Lemma gather_groups_total kx vx es : (forall d, is_Some (key d) -> is_Some (kx d) /\ is_Some (vx d)) ->
  (forall d v, kx d = Some (Some v) -> is_Some (vjson v)) -> Forall (fun e => is_Some (key e.1)) es ->
  forall gs, map_Forall (fun _ g => is_Some (key (gd_doc g))) gs ->
  exists gs', gather_groups kx vx gs es = Some gs' /\ map_Forall (fun _ g => is_Some (key (gd_doc g))) gs'.
Proof.
  intros T1 T2. induction 1 as [|[d m] es Hk Hes IH]; intros gs Hgs; simpl; [eauto|]. simpl in Hk.
  destruct (T1 d Hk) as [[ogk Ek] [ov Ev]]. rewrite Ek. simpl. destruct ogk as [gk|]; [|auto].
  rewrite Ev. simpl. destruct ov as [v|]; [|auto]. destruct (T2 d gk Ek) as [j Ej]. rewrite Ej. simpl. apply IH.
  apply map_Forall_insert_2; [|done]. simpl. destruct (gs !! j) as [g|] eqn:Eg; simpl; [by eapply Hgs|done].
Qed.
Lemma gather_aggregate_total agg : (forall d v vs, is_Some (key d) -> exists r, agg d v vs = Some r /\ is_Some (key r)) ->
  forall l acc, Forall (fun x => is_Some (key (gd_doc x.2))) l -> is_Some (gather_aggregate sortv agg acc l).
Proof.
  intros T l. induction l as [|[i g] l IH]; simpl; intros acc H; [eauto|]. apply Forall_cons in H as [Hg H]. simpl in Hg.
  match goal with |- context [agg (gd_doc g) (gd_key g) ?vs] => destruct (T (gd_doc g) (gd_key g) vs Hg) as (r & -> & [k Hr]) end.
  simpl. unfold add_doc. simpl. rewrite Hr. destruct (counts acc !! k); case_match; simpl; auto.
Qed.

Lemma entries_keyed o z es : order_ok o -> zwf z -> entries o z = Some es -> Forall (fun e => is_Some (key e.1)) es.
Proof.
  intros Ho W E. apply List.Forall_forall. intros [d c] Hin. simpl.
  apply (Permutation_in _ (zents_entries o z es Ho W E)) in Hin.
  apply zents_in in Hin as (k & Hd & _); [|done]. exists k. by eapply (wf_key _ W).
Qed.
Lemma linear_total f ev o z : linear_ext f ev -> ev_total ev -> ev_keyed ev -> order_ok o -> zwf z -> is_Some (f o z).
Proof.
  intros L T K Ho W. apply (L o z Ho W). intros k d Hd. apply good_total; auto. exists k. by eapply (wf_key _ W).
Qed.
Lemma process_total p o z : op_total p -> op_wf p -> order_ok o -> zwf z -> is_Some (process o p z).2.
Proof.
  intros T Wp Ho W. destruct p; simpl in *.
  - destruct T as [[_ K] [T _]]. by apply (linear_total (fun o => project o ev) ev); [apply project_linear|..].
  - destruct T as [[_ K] T]. by apply (linear_total (fun o => select o ev) ev); [apply select_linear|..].
  - destruct T as [T K]. by apply (linear_total (fun o => unwind o ex tr) (unwind_ev ex tr)); [apply unwind_linear|..].
  - destruct T as (T1 & T2 & T3). unfold gather.
    destruct (entries_ok (osub o 0) z) as (es & E & _); auto using osub_ok. rewrite E. simpl.
    destruct (gather_groups_total kx vx es T1 T2) with (gs := (∅ : gmap ident group_data)) as (gs & -> & Hgs).
    { eapply (entries_keyed (osub o 0)); eauto using osub_ok. }
    { apply map_Forall_empty. }
    simpl. apply gather_aggregate_total; [done|]. apply List.Forall_forall. intros [i g] Hin. simpl.
    apply (Permutation_in _ (Ho group_data [1%nat] gs)) in Hin.
    apply elem_of_list_In, elem_of_map_to_list in Hin. by eapply Hgs.
  - destruct (zdistinct_spec o z) as (y & -> & _); eauto.
  - destruct (int_step sortv o state z) as (s & E & _); auto. simpl in E. rewrite E. simpl; eauto.
  - destruct (diff_step sortv o prev z) as (s & E & _); auto. simpl in E. rewrite E. simpl; eauto.
  - eauto.
  - apply (fused_total sortv (OProjSel proj sel) o z); auto; apply T.
  - apply (fused_total sortv (OSelProjs sel projs) o z); auto; apply T.
Qed.
Lemma process_keeps_total o p z p' r : process o p z = (p', r) -> op_total p -> op_total p'.
Proof.
  destruct p; simpl; try (intros [= <- _]; done).
  - destruct (zadd o state z); intros [= <- _]; done.
  - destruct (zsub o z prev); intros [= <- _]; done.
Qed.
Lemma chain_process_total cs : forall o n z, Forall (fun c => op_total (cn_op c) /\ op_wf (cn_op c)) cs -> order_ok o -> zwf z ->
  exists cs' y, chain_process o n cs z = (cs', Some y) /\ zwf y /\ Forall (fun c => op_total (cn_op c) /\ op_wf (cn_op c)) cs'.
Proof.
  induction cs as [|c cs IH]; intros o n z H Ho W; simpl; [exists [], z; auto|].
  apply Forall_cons in H as [[Tc Wc] H].
  destruct (process_total (cn_op c) (osub o n) z Tc Wc (osub_ok o n Ho) W) as [m Em].
  destruct (process (osub o n) (cn_op c) z) as [p' r] eqn:P. simpl in Em. subst r.
  destruct (process_wf sortv (osub o n) (cn_op c) z p' (Some m) (osub_ok o n Ho) Wc W P) as [Wp' Wm].
  destruct (IH o (S n) m H Ho (Wm m eq_refl)) as (cs' & y & -> & Wy & Hc).
  exists (CNode p' (cn_lifted c) :: cs'), y. split_and!; [done|done|].
  constructor; [|done]. simpl. split; [|done]. by eapply process_keeps_total.
Qed.

Lemma tuples_keyed inputs : Forall zwf inputs -> forall t w, In (t, w) (tuples (map zents inputs)) -> Forall (fun d => is_Some (key d)) t.
Proof.
  induction 1 as [|z inputs W Ws IH]; simpl; intros t w Hin; [destruct Hin as [[= <- <-]|[]]; constructor|].
  apply in_flat_map in Hin as ([d c] & Hd & Hin). apply in_map_iff in Hin as ([t' w'] & [= <- <-] & Hin).
  constructor; [|by eapply IH]. simpl. apply zents_in in Hd as (k & Hd & _); [|done]. exists k. by eapply (wf_key _ W).
Qed.
Lemma jev_total_good jev inputs : jev_total jev -> Forall zwf inputs -> all_good jev inputs.
Proof. intros T W t w Hin. apply T. by eapply tuples_keyed. Qed.

Definition graph_total (g : graph) : Prop :=
  Forall (fun c => op_total (cn_op c) /\ op_wf (cn_op c)) (g_chain g) /\ g_inputs g <> [] /\
  match g_join g with
  | None => True
  | Some (JInc jev n prevs) => jev_ok jev /\ jev_total jev /\ length prevs = n /\ n = length (g_inputs g)
                               /\ Forall zwf (map (default zempty) prevs)
  | _ => False
  end.
Lemma feeds_mapM names i : (forall nm, nm ∈ names -> is_Some (i !! nm)) -> exists ds, mapM (fun n => (i : gmap string zset) !! n) names = Some ds.
Proof.
  induction names as [|n names IH]; intros H; simpl; [eauto|]. destruct (H n) as [z ->]; [by left|].
  destruct IH as [ds ->]; [intros; apply H; by right|]. simpl; eauto.
Qed.
Lemma exec_process_total o g i : order_ok o -> graph_total g -> feeds (g_inputs g) i ->
  exists g' y, exec_process o g i = (g', Some y) /\ graph_total g' /\ g_inputs g' = g_inputs g.
Proof.
  intros Ho (Hc & Hi & Hj) (Hsz & Hl & Wi). unfold ExecModel.exec_process. rewrite Hsz, Nat.eqb_refl. cbn [negb].
  destruct (feeds_mapM (g_inputs g) i Hl) as [ds Ed]. rewrite Ed.
  pose proof (mapM_wf _ _ _ Wi Ed) as Wd. destruct (mapM_lookup_nth _ _ _ Ed) as [Ld _].
  destruct g as [names j cs]; cbn [g_inputs g_join g_chain] in *. destruct j as [j|].
  - destruct j as [| jev n prevs | |]; try done. destruct Hj as (Hok & Ht & Lp & Ln & Wp). simpl.
    destruct (join_inc (osub o 0) jev n prevs ds) as [ps r] eqn:EJ.
    pose proof (join_inc_step (osub o 0) jev n prevs ds ps r (osub_ok o 0 Ho) Hok Wp Wd Lp ltac:(lia) EJ) as HS.
    destruct r as [z|].
    + destruct HS as (Ps' & -> & WP' & HS & Wz & _ & _).
      destruct (chain_process_total cs (osub o 1) 0 z Hc (osub_ok o 1 Ho) Wz) as (cs' & y & -> & Wy & Hc').
      eexists _, y. split; [done|]. split; [|done]. split; [done|]. split; [done|]. cbn [g_join g_inputs].
      split_and!; try done.
      * rewrite map_length. destruct HS as (HS & _). lia.
      * rewrite map_map. simpl. by rewrite map_id.
    + exfalso. destruct HS as (_ & m & _ & HB). apply HB. apply jev_total_good; [done|]. by apply term_inputs_wf.
  - destruct ds as [|z ds]; [destruct names; done|]. apply Forall_cons in Wd as [Wz _].
    destruct (chain_process_total cs (osub o 1) 0 z Hc (osub_ok o 1 Ho) Wz) as (cs' & y & -> & Wy & Hc').
    eexists _, y. split; [done|]. split; [|done]. done.
Qed.
Lemma exec_run_total o ins : order_ok o -> forall n g, graph_total g -> Forall (feeds (g_inputs g)) ins ->
  exists outs, (exec_run o n g ins).2 = map Some outs.
Proof.
  intros Ho. induction ins as [|i ins IH]; intros n g Hg F; [by exists []|].
  apply Forall_cons in F as [Fi F].
  destruct (exec_process_total (osub o n) g i (osub_ok o n Ho) Hg Fi) as (g1 & y & E & Hg1 & Ei).
  simpl. rewrite E. destruct (IH (S n) g1 Hg1) as [outs Eo]; [by rewrite Ei|].
  destruct (exec_run o (S n) g1 ins) as [g2 rs]. simpl in *. subst rs. by exists (y :: outs).
Qed.
Lemma op_total_fused n cs : Forall op_total (map cn_op cs) -> Forall op_total (map cn_op (fuse_sel_projs n cs)).
Proof.
  assert (G : forall evs, Forall (fun ev => op_total (OProject ev)) evs ->
    Forall (fun ev => ev_ok ev /\ ev_keyed ev) evs /\ Forall (fun ev => ev_total ev /\ ev_single ev) evs).
  { intros evs H. split; eapply Forall_impl; try exact H; intros ev [? ?]; done. }
  apply fuse_sel_projs_ops.
  - intros se evs Hs He. destruct (G evs He) as [G1 G2]. destruct Hs as [Hs1 Hs2]. split; split; done.
  - intros evs He. destruct (G evs He) as [G1 G2]. split; split; done.
Qed.
Lemma op_total_proj_sel cs : Forall op_total (map cn_op cs) -> Forall op_total (map cn_op (fuse_proj_sel cs)).
Proof.
  remember (length cs) as n eqn:En. revert cs En. induction (lt_wf n) as [n _ IH]. intros cs -> H.
  destruct cs as [|c1 [|c2 l]]; [done|done|]. rewrite fuse_proj_sel_eq. simpl in H.
  apply Forall_cons in H as [H1 H]. pose proof H as H'. apply Forall_cons in H' as [H2 H'].
  assert (Hdef : Forall op_total (map cn_op (c1 :: fuse_proj_sel (c2 :: l)))).
  { rewrite map_cons. constructor; [done|]. apply (IH (length (c2 :: l))); [simpl; lia|done|done]. }
  destruct (cn_op c1) eqn:E1; try exact Hdef. destruct (cn_op c2) eqn:E2; try exact Hdef.
  simpl. constructor.
  - destruct H1 as [H1a H1b], H2 as [H2a H2b]. split; split; done.
  - apply (IH (length l)); [simpl; lia|done|done].
Qed.

Lemma c13_total kinds join ps g1 o ins :
  pipeline_new kinds join ps = Some g1 -> kinds <> [] -> NoDup kinds -> forallb user_op ps = true ->
  Forall op_ok ps -> Forall op_total ps -> (forall jev, join = Some jev -> jev_ok jev /\ jev_total jev) ->
  order_ok o -> Forall (feeds kinds) ins -> exists outs, (exec_run o 0 g1 ins).2 = map Some outs.
Proof.
  intros Hg1 Hk ND Hu Hok Ht Hj Ho F.
  destruct (pipeline_graph kinds join ps) as [g|] eqn:Hg; [|by rewrite (pipeline_new_none _ _ _ Hg) in Hg1].
  destruct (c12_optimize kinds join ps g Hg Hu Hk) as (Eo & _ & En).
  rewrite En in Hg1. injection Hg1 as <-. rewrite Eo. cbn [fst]. clear Eo En.
  pose proof (pipeline_graph_eq _ _ _ _ Hg) as ->. cbn [g_inputs g_join g_chain].
  assert (EI : input_names kinds = kinds) by (unfold input_names; by rewrite add_inputs_nodup).
  rewrite EI. apply exec_run_total; [done| |done].
  assert (E0 : map cn_op (user_chain ps) = ps) by (unfold user_chain; by rewrite map_map, map_id).
  split_and!; cbn [g_inputs g_join g_chain].
  - assert (T1 : Forall op_total (map cn_op (opt_chain (user_chain ps)))).
    { apply op_total_proj_sel, op_total_fused. apply lift_ops; [done|done|]. by rewrite E0. }
    assert (T2 : Forall op_wf (map cn_op (opt_chain (user_chain ps)))).
    { assert (H2 : Forall op_wf (map cn_op (lift (user_chain ps)))).
      { apply lift_ops; [apply wf_empty|apply wf_empty|]. rewrite E0. eapply Forall_impl; [exact Hok|]. apply op_ok_wf. }
      apply (op_wf_fused (length (lift (user_chain ps)))) in H2. unfold opt_chain.
      rewrite List.Forall_forall in H2 |- *. intros p Hp. apply in_map_iff in Hp as (c & <- & Hc).
      apply fuse_proj_sel_in in Hc as [Hc|Hc]; [apply H2, in_map_iff; eauto|]. by destruct (cn_op c). }
    rewrite Forall_map in T1, T2. rewrite List.Forall_forall in *. auto.
  - done.
  - destruct join as [jev|]; [|done]. simpl. destruct (Hj jev eq_refl) as [Hj1 Hj2].
    split_and!; try done; [apply repeat_length|].
    apply List.Forall_forall. intros x Hx. apply in_map_iff in Hx as (x' & <- & Hx).
    apply repeat_spec in Hx as ->. apply wf_empty.
Qed.
End incr2.
