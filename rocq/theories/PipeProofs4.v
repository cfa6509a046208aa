(** Retried events (C22). *)
From Verif Require Import JsonModel ObjModel ZSetModel OpsModel ExecModel PipelineModel ReconcilerModel ZSetSpec OpsSpec GatherSpec ExecSpec JsonSpec CleanSpec PipelineSpec.
From Verif Require Import JsonProofs JsonIdent CleanProofs ZSetProofs ZSetProofs2 OpsProofs OptProofs IncrProofs IncrProofs2 GatherDet ReconcileProofs ObjProofs ConvertProofs TargetProofs PipeProofs PipeProofs2 PipeProofs3 SyncProofs.

Section pipe.
Context {FF : FloatFmt}.
Variable P : jobj -> bool.
#[local] Hint Extern 0 Docs => exact (json_docs_on P) : typeclass_instances.
Variable sortv : list json -> list json.
#[local] Notation xs := (@exec_scratch (json_docs_on P) sortv).

Lemma reconcile_nil o tgt : order_ok o -> reconcile P o tgt [] = (tgt, Some []).
Proof.
  intros Ho. assert (OE : forall A n, o A n ∅ = []).
  { intros A n. apply Permutation_nil. symmetry. assert (HP : Permutation (o A n (∅ : gmap string A)) (map_to_list ∅)) by (by apply Ho).
    by rewrite map_to_list_empty in HP. }
  unfold reconcile. simpl. rewrite !OE. simpl. by rewrite !OE.
Qed.
Lemma convert_zero o target y ds : order_ok o -> zwf y -> (forall k : string, zcount y k = 0) -> convert_zset P o target y = Some ds -> ds = [].
Proof.
  intros Ho W HZ E. destruct ds as [|x ds]; [done|]. exfalso.
  destruct (proj1 (convert_zset_in P target o y _ Ho W E x)) as (k & d & i & [Hd _] & _); [by left|].
  destruct (zwf_doc P _ _ _ W Hd) as [_ Hn]. apply Hn, HZ.
Qed.
Lemma tsteps_zero target ys1 : forall tgt ys2 outs tgt', tsteps P target tgt (ys1 ++ ys2) outs tgt' ->
  Forall (fun y => zwf y /\ forall k : string, zcount y k = 0) ys2 -> outs = take (length ys1) outs ++ replicate (length ys2) [].
Proof.
  induction ys1 as [|y ys1 IH]; intros tgt ys2 outs tgt' H HZ.
  - simpl in *. revert tgt outs H. induction HZ as [|y ys2 [Wy Hy] HZ IH]; intros tgt outs H; inversion H; subst; clear H; [done|].
    match goal with H1 : order_ok ?o, H : convert_zset P ?o _ _ = Some ?l |- _ => pose proof (convert_zero o target y l H1 Wy Hy H); subst l end.
    match goal with H : reconcile P ?o _ _ = _ |- _ => rewrite (reconcile_nil o) in H by done; injection H as <- <- end.
    simpl. f_equal. by eapply IH.
  - inversion H; subst; clear H. simpl. f_equal. by eapply IH.
Qed.

Lemma c22_silent target sources join ps g p o ds d n p' outs :
  exact P -> sources <> [] -> NoDup (map gvk_kind sources) ->
  forallb user_op ps = true -> Forall op_ok ps -> Forall (@op_posdet (json_docs_on P) sortv) ps -> (forall jev, join = Some jev -> jev_ok jev) ->
  pipe_new P target sources join ps = Some p -> pipeline_graph (map gvk_kind sources) join ps = Some g ->
  order_ok o -> history_ok P sources ∅ (ds ++ d :: replicate n d) -> d_type d <> Deleted ->
  pipe_run P sortv o 0 p (ds ++ d :: replicate n d) = (p', map Some outs) ->
  outs = take (S (length ds)) outs ++ replicate n [].
Proof.
  intros Hex Hs ND Hu Hok Hd Hj Hp Hgr Ho HH Ht R.
  destruct (pipe_prefixes P sortv target sources join ps g p o (ds ++ d :: replicate n d) p' outs) as (ys & T & Ly & HP); auto.
  assert (Ed : ds ++ d :: replicate n d = (ds ++ [d]) ++ replicate n d) by (by rewrite <-app_assoc).
  assert (L : length (ds ++ d :: replicate n d) = (S (length ds) + n)%nat) by (rewrite app_length; simpl; rewrite replicate_length; lia).
  assert (EA : forall j, (j <= n)%nat -> after (take (S (length ds) + j) (ds ++ d :: replicate n d)) = after (ds ++ [d])).
  { intros j Hj'. rewrite Ed. rewrite take_app_ge by (rewrite app_length; simpl; lia). rewrite app_length. simpl.
    replace (S (length ds + j) - (length ds + 1))%nat with j by lia. rewrite take_replicate, after_app.
    assert (E1 : apply_event (after (ds ++ [d])) d = after (ds ++ [d])).
    { rewrite after_app. simpl. unfold apply_event. destruct (d_type d); try done; by rewrite insert_insert. }
    generalize (j `min` n)%nat. intros m. induction m as [|m IHm]; [done|]. simpl. by rewrite E1. }
  assert (HZ : Forall (fun y => zwf y /\ forall k : string, zcount y k = 0) (drop (S (length ds)) ys)).
  { apply List.Forall_forall. intros y Hin. apply elem_of_list_In, elem_of_list_lookup in Hin as (j & Hjy). rewrite lookup_drop in Hjy.
    assert (j < n)%nat. { apply lookup_lt_Some in Hjy. lia. }
    destruct (HP (S (length ds) + j)%nat) as (acc1 & B1 & I1 & S1 & T1 & _); [lia|].
    destruct (HP (S (length ds) + S j)%nat) as (acc2 & B2 & I2 & S2 & T2 & W2); [lia|].
    rewrite EA in I1, I2 by lia. replace (S (length ds) + S j)%nat with (S (S (length ds) + j)) in T2, W2 by lia.
    rewrite (take_S_r _ _ _ Hjy) in T2, W2. apply Forall_app in W2 as [_ W2]. apply Forall_cons in W2 as [Wy _].
    split; [done|]. intros k.
    assert (Eq : zeq B1 B2).
    { eapply (exec_scratch_unique (DD := json_docs_on P) sortv (map gvk_kind sources) join ps g acc1 acc2); eauto.
      intros kd Hk. destruct (I1 kd Hk) as (a1 & L1 & Wa1 & Ca1), (I2 kd Hk) as (a2 & L2 & Wa2 & Ca2). exists a1, a2. split_and!; try done.
      - intros k'. rewrite (Ca1 k'). apply occ_nonneg.
      - intros k'. rewrite (Ca2 k'). apply occ_nonneg.
      - intros k'. rewrite (Ca1 k'), (Ca2 k'). done. }
    specialize (Eq k). destruct T1 as [_ T1], T2 as [_ T2]. rewrite (T1 k), (T2 k) in Eq. unfold total in Eq. rewrite lsum_app in Eq. simpl in Eq. lia. }
  rewrite <-(take_drop (S (length ds)) ys) in T. pose proof (tsteps_zero target _ _ _ _ _ T HZ) as E.
  rewrite take_length_le in E by lia. rewrite drop_length in E. replace (length ys - S (length ds))%nat with n in E by lia. exact E.
Qed.

(** ** An update that changes nothing *)
Lemma fed_app kd ds1 : forall zs1 ds2 zs2 (k : string), length ds1 = length zs1 -> fed P kd (ds1 ++ ds2) (zs1 ++ zs2) k = fed P kd ds1 zs1 k + fed P kd ds2 zs2 k.
Proof. induction ds1 as [|d ds1 IH]; intros [|z zs1] ds2 zs2 k L; try done. simpl. rewrite IH by (simpl in L; lia). case_decide; lia. Qed.
Lemma convert_run_length ds : forall src src' rs, convert_run P src ds = (src', rs) -> length rs = length ds.
Proof.
  induction ds as [|d ds IH]; intros src src' rs E; simpl in E; [by injection E as _ <-|].
  destruct (convert_delta P src d). destruct (convert_run P _ ds) as [s r] eqn:E2. injection E as _ <-. simpl. f_equal. by eapply IH.
Qed.
Lemma convert_run_app src ds d : convert_run P src (ds ++ [d]) =
  let '(s1, r1) := convert_run P src ds in let '(s2, r2) := convert_delta P s1 d in (s2, r1 ++ [r2]).
Proof.
  revert src. induction ds as [|x ds IH]; intros src; cbn [app convert_run]; [by destruct (convert_delta P src d)|].
  destruct (convert_delta P src x) as [s1 r1]. rewrite IH. destruct (convert_run P s1 ds) as [s2 r2]. by destruct (convert_delta P s2 d).
Qed.
Lemma c17_unknown sources ds d : history_ok P sources ∅ ds -> plain (obj_id (d_obj d)) -> d_type d = Deleted ->
  after ds !! source_id (d_obj d) = None ->
  exists src zs, convert_run P ∅ (ds ++ [d]) = (src, map Some zs ++ [None]) /\ mirrors src (after ds).
Proof.
  intros H Hp Ht Hn. destruct (convert_run_ok P sources ds ∅ ∅ (world_empty P _) mirrors_empty H) as (src & zs & E & _ & M & Ww & _).
  rewrite convert_run_app, E. unfold convert_delta. rewrite Ht. rewrite copy_gvk.
  assert (Hold : store_get (default ∅ (src !! get_gvk (d_obj d))) (obj_copy (d_obj d)) = None).
  { unfold store_get. assert (K : store_key (obj_copy (d_obj d)) = store_key (d_obj d)).
    { unfold store_key. change (skey (obj_id (obj_copy (d_obj d))).1 (obj_id (obj_copy (d_obj d))).2 = skey (obj_id (d_obj d)).1 (obj_id (d_obj d)).2). by rewrite copy_id. }
    rewrite K, (mirrors_get P sources src (after ds)) by done. by rewrite Hn. }
  rewrite Hold. eexists _, zs. split; [reflexivity|]. by apply mirrors_touch.
Qed.
Lemma c17_noop sources ds d : history_ok P sources ∅ (ds ++ [d]) -> d_type d <> Deleted ->
  after ds !! source_id (d_obj d) = Some (stripped (d_obj d)) ->
  exists src zs z, convert_run P ∅ (ds ++ [d]) = (src, map Some (zs ++ [z])) /\ length zs = length ds /\ forall k : string, zcount z k = 0.
Proof.
  intros HH Ht Hw. pose proof HH as [H1 H2]%history_app.
  destruct (convert_history P sources (ds ++ [d]) HH) as (src & zs0 & C & _ & _ & F).
  destruct (convert_history P sources ds H1) as (src1 & zs1 & C1 & _ & _ & F1).
  destruct (convert_run_prefix P _ _ _ _ _ C) as (src2 & C2). rewrite C1 in C2. injection C2 as _ C2. apply (inj (map Some)) in C2.
  pose proof (convert_run_length _ _ _ _ C) as L. rewrite map_length, app_length in L. simpl in L.
  assert (exists z, zs0 = zs1 ++ [z]) as (z & ->).
  { destruct (drop (length ds) zs0) as [|z l] eqn:ED.
    - pose proof (f_equal length ED) as EL. rewrite drop_length in EL. simpl in EL. lia.
    - assert (l = []) as ->. { pose proof (f_equal length ED) as EL. rewrite drop_length in EL. destruct l; [done|]. simpl in EL. lia. }
      exists z. by rewrite C2, <-ED, take_drop. }
  assert (L1 : length zs1 = length ds). { rewrite app_length in L. simpl in L. lia. }
  exists src, zs1, z. split; [done|]. split; [done|]. intros k. specialize (F (get_kind (d_obj d)) k). specialize (F1 (get_kind (d_obj d)) k).
  rewrite fed_app in F by done. rewrite F1 in F. simpl in F. rewrite decide_True in F by done.
  assert (EA : after (ds ++ [d]) = after ds).
  { rewrite after_app. simpl. unfold apply_event. destruct (d_type d); try done; by rewrite insert_id. }
  rewrite EA in F. lia.
Qed.

(** ** Reconcile *)
Lemma action_expected tgt i ds : action (ops_of tgt i ds) = expected_op (adds_of i ds) (dels_of i ds) (held tgt i).
Proof.
  unfold action, ops_of, expected_op. cbn [k_adds k_dels k_existed]. destruct (adds_of i ds) as [|a l] eqn:Ea.
  - simpl. destruct (dels_of i ds); [done|]. simpl. destruct (held tgt i); [by rewrite bool_decide_eq_true_2|]. rewrite bool_decide_eq_false_2; [done|by intros [? ?]].
  - destruct (last (a :: l)) as [x|] eqn:El; [|by apply last_None in El]. destruct (dels_of i ds); [done|]. simpl.
    destruct (held tgt i); [by rewrite bool_decide_eq_true_2|]. rewrite bool_decide_eq_false_2; [done|by intros [? ?]].
Qed.
Lemma c18_core o tgt ds : order_ok o -> Forall raw_delta ds -> Forall (fun d => canonical (d_obj d)) ds ->
  exists tgt' out, reconcile P o tgt ds = (tgt', Some out)
  /\ NoDup (map (fun d => obj_id (d_obj d)) out)
  /\ (exists dels ups, out = dels ++ ups /\ Forall (fun d => d_type d = Deleted) dels /\ Forall (fun d => d_type d = Upserted) ups)
  /\ (forall i d, plain i -> In d out /\ obj_id (d_obj d) = i <-> expected_op (adds_of i ds) (dels_of i ds) (held tgt i) = Some d)
  /\ (forall d, In d out -> plain (obj_id (d_obj d)))
  /\ (forall i, plain i -> held tgt' i = apply_ops (held tgt) out i).
Proof.
  intros Ho Hr Hc. destruct (reconcile_ok P o tgt ds Ho Hr) as (tgt' & out & E & ND & HO & R1 & R2 & R3 & R4).
  assert (R1' : forall i d, plain i -> In d out /\ obj_id (d_obj d) = i <-> expected_op (adds_of i ds) (dels_of i ds) (held tgt i) = Some d).
  { intros i d Hi. rewrite (R1 i d Hi), <-action_expected. split; [by intros [_ ?]|]. intros Ha. split; [|done].
    assert (HT : adds_of i ds <> [] \/ dels_of i ds <> []).
    { unfold action, ops_of in Ha. cbn [k_adds k_dels] in Ha. destruct (adds_of i ds); [|by left]. destruct (dels_of i ds); [done|by right]. }
    assert (G : forall l : list jobj, l = adds_of i ds \/ l = dels_of i ds -> l <> [] -> touched i ds).
    { intros l Hl Hne. destruct l as [|m l]; [done|].
      destruct Hl as [Hl|Hl]; unfold adds_of, dels_of in Hl;
        (assert (Hm : In m (m :: l)) by (by left)); rewrite Hl in Hm; apply in_map_iff in Hm as (x & <- & Hx);
        apply filter_In in Hx as [Hx Hb]; apply bool_decide_eq_true in Hb as [_ Hb]; by exists x. }
    destruct HT as [HT|HT]; [exact (G _ (or_introl eq_refl) HT)|exact (G _ (or_intror eq_refl) HT)]. }
  exists tgt', out. split; [done|]. split; [done|]. split; [done|]. split; [done|]. split; [done|].
  intros i Hi. destruct (decide (i ∈ map (fun d => obj_id (d_obj d)) out)) as [Hin|Hn]; rewrite elem_of_list_In in *.
  - apply in_map_iff in Hin as (d & <- & Hd). rewrite (R3 d Hd), (apply_ops_in out _ d ND Hd).
    assert (Hcan : canonical (d_obj d)).
    { pose proof (proj1 (R1' (obj_id (d_obj d)) d Hi) (conj Hd eq_refl)) as EO.
      assert (Hin : forall m, In m (adds_of (obj_id (d_obj d)) ds) \/ In m (dels_of (obj_id (d_obj d)) ds) -> canonical m).
      { intros m Hm. rewrite List.Forall_forall in Hc. destruct Hm as [Hm|Hm]; unfold adds_of, dels_of in Hm; apply in_map_iff in Hm as (x & <- & Hx); apply filter_In in Hx as [Hx _]; by apply Hc. }
      revert EO. unfold expected_op. destruct (adds_of (obj_id (d_obj d)) ds) as [|a l] eqn:EA.
      - destruct (dels_of (obj_id (d_obj d)) ds) as [|x l]; [done|]. destruct (held tgt _); [|done]. intros [= <-]. apply Hin. right. by left.
      - assert (HL : Delta Upserted <$> last (a :: l) = Some d -> canonical (d_obj d)).
        { destruct (last (a :: l)) as [x|] eqn:El; [|done]. intros [= <-]. simpl. apply Hin. left. by apply last_In. }
        destruct (dels_of (obj_id (d_obj d)) ds) as [|x l']; [done|]. destruct (held tgt _); [done|done]. }
    unfold effect. destruct (d_type d); simpl; try done; by rewrite Hcan.
  - by rewrite (R4 i Hi Hn), apply_ops_notin.
Qed.

(** ** Sources of the same Kind *)
Lemma short_join_fails (g : @graph (json_docs_on P)) o i jev n prevs : g_join g = Some (JInc jev n prevs) -> length (g_inputs g) <> n ->
  @exec_process (json_docs_on P) sortv o g i = (g, None).
Proof.
  intros Hj Hn. unfold exec_process. destruct (negb _); [done|]. destruct (mapM _ _) as [ins|] eqn:Em; [|done].
  apply mapM_length in Em. rewrite Hj. simpl. unfold join_inc. rewrite decide_False by lia. rewrite <-Hj. by destruct g.
Qed.
Lemma add_inputs_length kinds : forall g : @graph (json_docs_on P),
  (length (g_inputs (foldl add_input g kinds)) <= length (g_inputs g) + length kinds)%nat.
Proof.
  induction kinds as [|k kinds IH]; intros g; simpl; [lia|]. etrans; [apply IH|]. unfold add_input. case_decide; simpl; rewrite ?app_length; simpl; lia.
Qed.
Lemma dup_inputs_length kinds : forall g : @graph (json_docs_on P), NoDup (g_inputs g) -> ~ NoDup (g_inputs g ++ kinds) ->
  (length (g_inputs (foldl add_input g kinds)) < length (g_inputs g) + length kinds)%nat.
Proof.
  induction kinds as [|k kinds IH]; intros g Hg HN; simpl; [by rewrite app_nil_r in HN|].
  unfold add_input at 2. case_decide as Hk.
  - pose proof (add_inputs_length kinds g). lia.
  - specialize (IH (Graph (g_inputs g ++ [k]) (g_join g) (g_chain g))). cbn [g_inputs] in IH.
    rewrite app_length, <-app_assoc in IH. simpl in IH.
    assert (NoDup (g_inputs g ++ [k])). { apply NoDup_app. split; [done|]. split; [|apply NoDup_singleton]. intros x Hx ->%elem_of_list_singleton. done. }
    specialize (IH H HN). lia.
Qed.
Lemma c24_same_kind target sources jev ps p o ds : sources <> [] -> ~ NoDup (map gvk_kind sources) -> forallb user_op ps = true ->
  pipe_new P target sources (Some jev) ps = Some p -> (pipe_run P sortv o 0 p ds).2 = replicate (length ds) None.
Proof.
  intros Hs HN Hu Hp. unfold pipe_new in Hp. apply bind_Some in Hp as (g1 & Hg1 & [= <-]).
  assert (HI : exists jev n prevs, g_join g1 = Some (JInc jev n prevs) /\ length (g_inputs g1) <> n).
  { set (kinds := map gvk_kind sources) in *. assert (Hk : kinds <> []) by (by destruct sources).
    destruct (pipeline_graph kinds (Some jev) ps) as [g|] eqn:Hg; [|by rewrite (pipeline_new_none _ _ _ Hg) in Hg1].
    destruct (c12_optimize kinds (Some jev) ps g Hg Hu Hk) as (Eo & _ & En). rewrite En, Eo in Hg1. injection Hg1 as <-.
    pose proof (pipeline_graph_eq _ _ _ _ Hg) as ->. cbn. eexists _, _, _. split; [reflexivity|].
    pose proof (dup_inputs_length kinds new_graph NoDup_nil_2 HN). unfold input_names. simpl in H. lia. }
  destruct HI as (jev' & n & prevs & HJ & HL).
  assert (G : forall m p, p_graph P p = g1 -> (pipe_run P sortv o m p ds).2 = replicate (length ds) None).
  { induction ds as [|d ds IH]; intros m p Ep; [done|]. simpl.
    assert (E : exists p1, evaluate P sortv (osub o m) p d = (p1, None) /\ p_graph P p1 = g1).
    { unfold evaluate. destruct (convert_delta P (p_src P p) d) as [src [z|]]; [|by eexists]. cbv zeta.
      change (p_graph P (set_src P p src)) with (p_graph P p). rewrite Ep.
      rewrite (short_join_fails g1 _ _ _ _ _ HJ HL). by eexists. }
    destruct E as (p1 & -> & E1). specialize (IH (S m) p1 E1). destruct (pipe_run P sortv o (S m) p1 ds). simpl in *. by rewrite IH. }
  by apply G.
Qed.

(** ** Writing to the target *)
Lemma write_all_ok T ds : write_all write_ok T ds = (apply_ops T ds, true).
Proof. revert T. induction ds as [|d ds IH]; intros T; [done|]. simpl. apply IH. Qed.
Lemma write_all_fails T ds : (write_all write_fails T ds).1 = T.
Proof. by destruct ds. Qed.
Lemma inc_run_ok o ds : forall n p T p' outs, Forall queued ds -> pipe_run P sortv o n p ds = (p', map Some outs) ->
  forall l, inc_run P sortv o n (p, T) (map (fun d => (d, write_ok)) ds ++ l) =
    let '(st, oks) := inc_run P sortv o (n + length ds) (p', apply_ops T (concat outs)) l in (st, replicate (length ds) true ++ oks).
Proof.
  induction ds as [|d ds IH]; intros n p T p' outs Hq E l; simpl in E.
  - injection E as <- E. destruct outs; [|done]. simpl. rewrite Nat.add_0_r. by destruct (inc_run _ _ _ _ _ _).
  - destruct (evaluate P sortv (osub o n) p d) as [p1 r] eqn:E1. destruct (pipe_run P sortv o (S n) p1 ds) as [p2 rs] eqn:E2.
    destruct outs as [|out outs]; [done|]. injection E as -> -> ->. apply Forall_cons in Hq as [Hq Hqs].
    assert (Ei : inc_reconcile P sortv write_ok (osub o n) (p, T) d = ((p1, apply_ops T out), true)).
    { unfold inc_reconcile. rewrite E1, write_all_ok. destruct Hq as [-> |[-> |[-> | ->]]]; done. }
    cbn [map app inc_run length replicate]. rewrite Ei. rewrite (IH (S n) p1 _ p' outs Hqs E2 l). rewrite Nat.add_succ_r. simpl.
    assert (EA : apply_ops (apply_ops T out) (concat outs) = apply_ops T (out ++ concat outs)) by (unfold apply_ops; by rewrite foldl_app).
    rewrite EA. by destruct (inc_run _ _ _ _ _ _).
Qed.
Lemma pipe_run_app o ds1 : forall n p ds2 p' outs, pipe_run P sortv o n p (ds1 ++ ds2) = (p', map Some outs) ->
  exists p1, pipe_run P sortv o n p ds1 = (p1, map Some (take (length ds1) outs))
    /\ pipe_run P sortv o (n + length ds1) p1 ds2 = (p', map Some (drop (length ds1) outs)).
Proof.
  induction ds1 as [|d ds1 IH]; intros n p ds2 p' outs E; simpl in E.
  - exists p. simpl. rewrite Nat.add_0_r. split; [done|]. exact E.
  - destruct (evaluate P sortv (osub o n) p d) as [p1 r] eqn:E1. destruct (pipe_run P sortv o (S n) p1 (ds1 ++ ds2)) as [p2 rs] eqn:E2.
    destruct outs as [|out outs]; [done|]. injection E as -> -> ->. destruct (IH _ _ _ _ _ E2) as (p3 & E3 & E4).
    exists p3. simpl. rewrite E1, E3. split; [done|]. by rewrite Nat.add_succ_r.
Qed.
Lemma c22_lost target sources join ps g p o ds d n p' outs :
  exact P -> sources <> [] -> NoDup (map gvk_kind sources) ->
  forallb user_op ps = true -> Forall op_ok ps -> Forall (@op_posdet (json_docs_on P) sortv) ps -> (forall jev, join = Some jev -> jev_ok jev) ->
  pipe_new P target sources join ps = Some p -> pipeline_graph (map gvk_kind sources) join ps = Some g ->
  order_ok o -> history_ok P sources ∅ (ds ++ d :: replicate n d) -> Forall queued ds -> d_type d = Updated \/ d_type d = Replaced ->
  pipe_run P sortv o 0 p (ds ++ d :: replicate n d) = (p', map Some outs) ->
  (inc_run P sortv o 0 (p, no_objects) (map (fun d => (d, write_ok)) ds ++ (d, write_fails) :: replicate n (d, write_ok))).1
  = (p', apply_ops no_objects (concat (take (length ds) outs))).
Proof.
  intros Hex Hs ND Hu Hok Hd Hj Hp Hgr Ho HH Hq Ht R.
  assert (Ht' : d_type d <> Deleted) by (by destruct Ht as [-> | ->]).
  assert (Hqd : queued d) by (unfold queued; tauto).
  pose proof (c22_silent target sources join ps g p o ds d n p' outs Hex Hs ND Hu Hok Hd Hj Hp Hgr Ho HH Ht' R) as E.
  assert (Ed : ds ++ d :: replicate n d = ds ++ ([d] ++ replicate n d)) by done. rewrite Ed in R.
  destruct (pipe_run_app o ds 0 p _ _ _ R) as (p1 & R1 & R2). simpl in R2.
  rewrite (inc_run_ok o ds 0 p no_objects p1 (take (length ds) outs) Hq R1).
  simpl plus. cbn [inc_run].
  destruct (evaluate P sortv (osub o (length ds)) p1 d) as [p2 r] eqn:E2.
  destruct (pipe_run P sortv o (S (length ds)) p2 (replicate n d)) as [p3 rs] eqn:E3. injection R2 as -> R2.
  assert (HL : (length ds < length outs)%nat).
  { pose proof (f_equal length R2) as EL. rewrite map_length, drop_length in EL. simpl in EL. lia. }
  destruct (drop (length ds) outs) as [|out outs'] eqn:ED; [done|]. injection R2 as -> ->.
  assert (Eo : outs' = replicate n []).
  { assert (outs' = drop (S (length ds)) outs) as ->.
    { replace (S (length ds)) with (length ds + 1)%nat by lia. by rewrite <-drop_drop, ED. }
    rewrite E. rewrite drop_app_ge by (rewrite take_length; lia). rewrite take_length_le by lia. by rewrite Nat.sub_diag. }
  assert (Ei : inc_reconcile P sortv write_fails (osub o (length ds)) (p1, apply_ops no_objects (concat (take (length ds) outs))) d
     = ((p2, apply_ops no_objects (concat (take (length ds) outs))), (write_all write_fails (apply_ops no_objects (concat (take (length ds) outs))) out).2)).
  { unfold inc_reconcile. rewrite E2. destruct (write_all write_fails _ out) as [w b] eqn:EW.
    pose proof (write_all_fails (apply_ops no_objects (concat (take (length ds) outs))) out) as EW'. rewrite EW in EW'. simpl in EW'. subst w.
    destruct Ht as [-> | ->]; done. }
  rewrite Ei.
  assert (Em : replicate n (d, write_ok) = map (fun d => (d, write_ok)) (replicate n d) ++ []).
  { rewrite app_nil_r. clear. induction n; [done|]. simpl. by rewrite IHn. }
  rewrite Em. rewrite (inc_run_ok o (replicate n d) (S (length ds)) p2 _ p' outs').
  - cbn [inc_run]. rewrite Eo. assert (EC : concat (replicate n ([] : list delta)) = []) by (clear; by induction n). by rewrite EC.
  - clear -Hqd. by apply Forall_replicate.
  - exact E3.
Qed.

(** ** Failed evaluations *)
Lemma evaluate_src o p d : p_src P (evaluate P sortv o p d).1 = (convert_delta P (p_src P p) d).1.
Proof.
  unfold evaluate. destruct (convert_delta P (p_src P p) d) as [src [z|]]; [|done].
  destruct (exec_process _ _ _ _) as [g1 [y|]]; [|done]. destruct (convert_zset _ _ _ y); [|done]. by destruct (reconcile _ _ _ _).
Qed.
Lemma evaluate_fails_tgt o p d : (evaluate P sortv o p d).2 = None -> p_tgt P (evaluate P sortv o p d).1 = p_tgt P p.
Proof.
  unfold evaluate. destruct (convert_delta P (p_src P p) d) as [src [z|]]; [|done].
  destruct (exec_process _ _ _ _) as [g1 [y|]]; [|done]. destruct (convert_zset _ _ _ y) as [l|]; [|done].
  unfold reconcile. destruct (group_deltas _ _ _) as [gs|]; [|done]. by destruct (foldl _ _ _).
Qed.
Lemma pipe_run_src o ds : forall n p, p_src P (pipe_run P sortv o n p ds).1 = (convert_run P (p_src P p) ds).1.
Proof.
  induction ds as [|d ds IH]; intros n p; simpl; [done|].
  pose proof (evaluate_src (osub o n) p d) as E. destruct (evaluate P sortv (osub o n) p d) as [p1 r].
  specialize (IH (S n) p1). destruct (pipe_run P sortv o (S n) p1 ds) as [p2 rs]. simpl in *.
  destruct (convert_delta P (p_src P p) d) as [src r']. simpl in E. rewrite IH, E. by destruct (convert_run P src ds).
Qed.
Lemma pipe_run_session o ds p0 : forall n p, session P sortv p0 p -> session P sortv p0 (pipe_run P sortv o n p ds).1.
Proof.
  induction ds as [|d ds IH]; intros n p H; simpl; [done|].
  pose proof (s_event P sortv p0 p (osub o n) d H) as H1. destruct (evaluate P sortv (osub o n) p d) as [p1 r].
  specialize (IH (S n) p1 H1). by destruct (pipe_run P sortv o (S n) p1 ds).
Qed.
Lemma pipe_new_src target sources join ps p : pipe_new P target sources join ps = Some p -> p_src P p = ∅.
Proof. unfold pipe_new. destruct (pipeline_new _ _ _) as [g|]; [|done]. intros [= <-]. done. Qed.
Lemma c14_caches target sources join ps p o ds p' rs :
  pipe_new P target sources join ps = Some p -> history_ok P sources ∅ ds -> pipe_run P sortv o 0 p ds = (p', rs) ->
  mirrors (p_src P p') (after ds)
  /\ forall o d, (evaluate P sortv o p' d).2 = None -> p_tgt P (evaluate P sortv o p' d).1 = p_tgt P p'.
Proof.
  intros Hp HH R. split; [|intros; by apply evaluate_fails_tgt].
  pose proof (pipe_run_src o ds 0 p) as E. rewrite R in E. simpl in E. rewrite E, (pipe_new_src _ _ _ _ _ Hp).
  destruct (convert_run_ok P sources ds ∅ ∅ (world_empty P _) mirrors_empty HH) as (src & zs & E1 & _ & M & _). rewrite E1. exact M.
Qed.
Lemma c14_sync target sources join ps g p o ds p' rs o' p2 out :
  exact P -> gvk_ok target -> sources <> [] -> NoDup (map gvk_kind sources) ->
  forallb basic_op ps = true -> Forall op_ok ps -> (forall jev, join = Some jev -> jev_ok jev) ->
  pipe_new P target sources join ps = Some p -> pipeline_graph (map gvk_kind sources) join ps = Some g ->
  history_ok P sources ∅ ds -> pipe_run P sortv o 0 p ds = (p', rs) -> target_ok P target (p_tgt P p') ->
  order_ok o' -> (forall acc B, inputs_of P (after ds) (map gvk_kind sources) acc -> exec_scratch sortv g acc B -> functional P B) ->
  sync P sortv o' p' = (p2, Some out) ->
  exists acc B, inputs_of P (after ds) (map gvk_kind sources) acc /\ exec_scratch sortv g acc B
    /\ shows P target B (apply_ops (held_plain (p_tgt P p')) out)
    /\ agree (p_tgt P p2) (apply_ops (held_plain (p_tgt P p')) out).
Proof.
  intros Hex Hg Hs ND Hb Hok Hj Hp Hgr HH R Ht Ho HF S.
  destruct (c14_caches _ _ _ _ _ _ _ _ _ Hp HH R) as [M _].
  assert (HS : session P sortv p p'). { pose proof (pipe_run_session o ds p 0 p (s_here P sortv p)) as H. by rewrite R in H. }
  destruct (c21_core P sortv target sources join ps g p p' o' ds Hex Hg Hs ND Hb Hok Hj Hp Hgr HS HH M Ht Ho HF) as [H _].
  destruct (H p2 out S) as (acc & B & H1 & H2 & H3 & H4 & _). by exists acc, B.
Qed.
End pipe.
