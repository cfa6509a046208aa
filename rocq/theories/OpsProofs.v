(** Linear operators, integration, differentiation and delay. *)
From Verif Require Import ZSetModel ZSetSpec ZSetProofs ZSetProofs2 OpsModel OpsSpec.

Section ops.
Context {DD : Docs}.
Implicit Types (z a b : zset) (k : ident) (d : doc) (c : Z) (es : list (doc * Z)) (ev : evaluator).

(** ** zsum *)
Lemma zsum_wsum g z : zsum g z = wsum g (zents z).
Proof. unfold zsum, wsum, zents. rewrite lsum_map. done. Qed.

Lemma zents_entries o z es : order_ok o -> zwf z -> entries o z = Some es -> Permutation es (zents z).
Proof.
  intros Ho W E. destruct (entries_inv o z es Ho W E) as (H1 & H2 & H3 & _).
  apply NoDup_Permutation.
  - eapply NoDup_fmap_1. unfold fmap. exact H3.
  - unfold zents. apply NoDup_fmap_1 with (f := fun e => key e.1). unfold fmap.
    assert (map (fun e : doc * Z => key e.1) (map (fun kd : ident * doc => (kd.2, zcount z kd.1)) (map_to_list (docs z)))
      = map (fun kd => Some kd.1) (map_to_list (docs z))) as Eq.
    { rewrite map_map. apply map_ext_in. intros [k d] Hin. simpl.
      apply elem_of_list_In, elem_of_map_to_list in Hin. eapply wf_key; eauto. }
    change (NoDup (map (fun e : doc * Z => key e.1) (map (fun kd : ident * doc => (kd.2, zcount z kd.1)) (map_to_list (docs z))))).
    rewrite Eq. clear Eq.
    rewrite <- (map_map fst Some). apply NoDup_fmap_2; [congruence|]. apply NoDup_fst_map_to_list.
  - intros [d c]. rewrite !elem_of_list_In. split.
    + intros Hin. apply H1 in Hin as (k & Hk & Hc & Hd). unfold zents. apply in_map_iff.
      exists (k, d). simpl. unfold zcount. rewrite Hc. split; [done|].
      apply elem_of_list_In, elem_of_map_to_list. done.
    + unfold zents. intros Hin. apply in_map_iff in Hin as ([k d'] & [= -> <-] & Hin).
      apply elem_of_list_In, elem_of_map_to_list in Hin.
      destruct (proj1 (wf_lookup_docs z k W)) as [c Hc]; [eauto|].
      unfold zcount. rewrite Hc. simpl. eauto.
Qed.
Lemma wsum_perm g es1 es2 : Permutation es1 es2 -> wsum g es1 = wsum g es2.
Proof. apply lsum_perm. Qed.
Lemma zsum_entries g o z es : order_ok o -> zwf z -> entries o z = Some es -> zsum g z = wsum g es.
Proof. intros Ho W E. rewrite zsum_wsum. symmetry. apply wsum_perm. eapply zents_entries; eauto. Qed.

Lemma zents_in z d c : zwf z -> In (d, c) (zents z) <-> exists k, docs z !! k = Some d /\ counts z !! k = Some c.
Proof.
  intros W. unfold zents. rewrite in_map_iff. split.
  - intros ([k d'] & [= -> <-] & Hin). apply elem_of_list_In, elem_of_map_to_list in Hin.
    exists k. split; [done|]. destruct (proj1 (wf_lookup_docs z k W)) as [c Hc]; [eauto|].
    unfold zcount. by rewrite Hc.
  - intros (k & Hd & Hc). exists (k, d). simpl. unfold zcount. rewrite Hc. split; [done|].
    by apply elem_of_list_In, elem_of_map_to_list.
Qed.
Lemma zents_keyed z : zwf z -> keyed (zents z).
Proof. intros W d c Hin. apply zents_in in Hin as (k & Hd & _); [|done]. exists k. eapply wf_key; eauto. Qed.
Lemma zents_esum z k : zwf z -> esum (zents z) k = zcount z k.
Proof.
  intros W. destruct (entries_ok std_order z std_order_ok W) as (es & E & _ & _ & _ & H).
  rewrite <- H. apply lsum_perm. symmetry. eapply zents_entries; eauto using std_order_ok.
Qed.

Lemma zsum_ext g a b : congr g -> zwf a -> zwf b -> zeq a b -> zsum g a = zsum g b.
Proof.
  intros Hg Wa Wb E. rewrite !zsum_wsum. apply wsum_ext; auto using zents_keyed.
  intros k. rewrite !zents_esum by done. apply E.
Qed.
Lemma zsum_add g a b z : congr g -> zwf a -> zwf b -> zwf z ->
  (forall k, zcount z k = zcount a k + zcount b k) -> zsum g z = zsum g a + zsum g b.
Proof.
  intros Hg Wa Wb Wz E. rewrite !zsum_wsum. apply wsum_add; auto using zents_keyed.
  intros k. rewrite !zents_esum by done. apply E.
Qed.
Lemma zsum_sub g a b z : congr g -> zwf a -> zwf b -> zwf z ->
  (forall k, zcount z k = zcount a k - zcount b k) -> zsum g z = zsum g a - zsum g b.
Proof.
  intros Hg Wa Wb Wz E. assert (zsum g a = zsum g z + zsum g b); [|lia].
  apply zsum_add; auto. intros k. rewrite E. lia.
Qed.
Lemma zsum_zero g z : congr g -> zwf z -> (forall k, zcount z k = 0) -> zsum g z = 0.
Proof.
  intros Hg W E. rewrite zsum_wsum. apply wsum_zero; auto using zents_keyed.
  intros k. rewrite zents_esum; auto.
Qed.

Lemma ev_ok_congr ev k : ev_ok ev -> congr (fun d => occ k (ev_out ev d)).
Proof.
  intros Hev d1 d2 k' H1 H2. specialize (Hev d1 d2 k' H1 H2). unfold ev_out.
  destruct (ev d1), (ev d2); simpl; try done. by apply occ_perm.
Qed.
Lemma ev_ok_good ev d1 d2 k : ev_ok ev -> key d1 = Some k -> key d2 = Some k -> ev_good ev d1 -> ev_good ev d2.
Proof.
  intros Hev H1 H2 (l & E & Hl). specialize (Hev d1 d2 k H1 H2). rewrite E in Hev.
  destruct (ev d2) as [l2|] eqn:E2; [|done]. exists l2. split; [done|].
  intros d' Hin. assert (In (key d') (map key l2)) as Hin2 by by apply in_map.
  eapply Permutation_in in Hin2; [|symmetry; exact Hev].
  apply in_map_iff in Hin2 as (d'' & <- & Hin2). auto.
Qed.

(** ** The common loop *)
Lemma esum_map_const (ds : list doc) c k : esum (map (fun d' => (d', c)) ds) k = c * occ k ds.
Proof.
  unfold esum, occ. rewrite lsum_map. simpl. rewrite <- lsum_scale. apply lsum_ext.
  intros d _. case_decide; lia.
Qed.

Lemma lin_loop_spec ev es : forall acc z', zwf acc -> lin_loop ev acc es = Some z' ->
  zwf z' /\ forall k, zcount z' k = zcount acc k + wsum (fun d => occ k (ev_out ev d)) es.
Proof.
  induction es as [|[d c] es IH]; simpl; intros acc z' W.
  - intros [= <-]. split; [done|]. intros k. unfold wsum; simpl. lia.
  - unfold ev_out. destruct (ev d) as [ds|] eqn:E; simpl; [|done].
    destruct (add_all acc _) as [acc'|] eqn:Ea; simpl; [|done]. intros El.
    apply add_all_spec in Ea as [W1 M1]; [|done]. apply IH in El as [W2 M2]; [|done].
    split; [done|]. intros k. rewrite M2, M1, esum_map_const. unfold wsum, ev_out; simpl. rewrite E. simpl. lia.
Qed.
Lemma lin_loop_success ev es : forall acc, (forall d c, In (d, c) es -> c <> 0) ->
  is_Some (lin_loop ev acc es) <-> forall d c, In (d, c) es -> ev_good ev d.
Proof.
  induction es as [|[d c] es IH]; simpl; intros acc Hnz.
  - split; [done|eauto].
  - assert (Hnz' : forall d c, In (d, c) es -> c <> 0) by eauto.
    assert (Hc : c <> 0) by eauto.
    destruct (ev d) as [ds|] eqn:E; simpl.
    + destruct (add_all acc (map (fun d' => (d', c)) ds)) as [acc'|] eqn:Ea; simpl.
      * rewrite (IH acc' Hnz'). split; [|by eauto].
        intros H d' c' [[= <- <-]|Hin]; [|eauto]. exists ds. split; [done|].
        intros d'' Hin. destruct (key d'') eqn:Ek; [eauto|]. exfalso.
        assert (add_all acc (map (fun d' => (d', c)) ds) = None); [|congruence].
        apply add_all_None, Exists_exists. exists (d'', c). split; [|done].
        apply elem_of_list_In, in_map_iff. eauto.
      * split; [by intros [? ?]|]. intros H. exfalso.
        apply add_all_None, Exists_exists in Ea as ([d' c'] & Hin & _ & Hn). simpl in Hn.
        apply elem_of_list_In, in_map_iff in Hin as (d'' & [= -> <-] & Hin).
        destruct (H d c) as (l & El & Hl); [by left|]. rewrite E in El. injection El as <-.
        destruct (Hl d' Hin). congruence.
    + split; [by intros [? ?]|]. intros H. exfalso. destruct (H d c) as (l & El & _); [by left|]. congruence.
Qed.

Lemma linear_of_loop ev : linear_ext (fun o z => es ← entries o z; lin_loop ev zempty es) ev.
Proof.
  intros o z Ho W. destruct (entries_ok o z Ho W) as (es & E & H1 & H2 & H3 & H4). rewrite E. simpl. split.
  - rewrite lin_loop_success.
    + split.
      * intros H k d Hd. destruct (proj1 (wf_lookup_docs z k W)) as [c Hc]; [eauto|]. eauto.
      * intros H d c Hin. apply H1 in Hin as (k & _ & _ & Hd). eauto.
    + intros d c Hin. apply H1 in Hin as (k & _ & Hc & _). eapply wf_nz; eauto.
  - intros z' El. apply lin_loop_spec in El as [W' M]; [|apply wf_empty]. split; [done|].
    intros k. rewrite M, mult_empty. rewrite (zsum_entries _ o z es); auto.
Qed.

Lemma project_linear ev : linear_ext (fun o => project o ev) ev.
Proof. apply linear_of_loop. Qed.
Lemma select_linear ev : linear_ext (fun o => select o ev) ev.
Proof. apply linear_of_loop. Qed.

Lemma linear_ext_ext f g ev : (forall o z, f o z = g o z) -> linear_ext g ev -> linear_ext f ev.
Proof. intros E H o z Ho W. rewrite E. by apply H. Qed.

Lemma add_all_app z es1 es2 : add_all z (es1 ++ es2) = (z' ← add_all z es1; add_all z' es2).
Proof.
  revert z; induction es1 as [|[d c] es1 IH]; intros z; simpl; [done|].
  destruct (add_doc z d c); simpl; auto.
Qed.

Lemma unwind_elems_eq tr d c vs : forall acc,
  unwind_elems tr d c acc vs = (ds ← mapM (tr d) vs; add_all acc (map (fun d' => (d', c)) ds)).
Proof.
  induction vs as [|v vs IH]; intros acc; simpl; [done|].
  destruct (tr d v) as [d'|]; simpl; [|done].
  destruct (add_doc acc d' c) as [acc'|] eqn:E; simpl.
  - rewrite IH. destruct (mapM (tr d) vs) as [ds|] eqn:Em; simpl; [|done]. by rewrite E.
  - destruct (mapM (tr d) vs) as [ds|] eqn:Em; simpl; [|done]. by rewrite E.
Qed.
Lemma unwind_loop_eq ex tr es : forall acc, unwind_loop ex tr acc es = lin_loop (unwind_ev ex tr) acc es.
Proof.
  induction es as [|[d c] es IH]; intros acc; simpl; [done|]. change (unwind_ev ex tr d) with (ov ← ex d; match ov with None => Some [] | Some vs => mapM (tr d) vs end).
  destruct (ex d) as [[vs|]|]; simpl; [|apply IH|done].
  rewrite unwind_elems_eq. destruct (mapM (tr d) vs) as [ds|]; simpl; [|done].
  destruct (add_all acc _) as [acc'|]; simpl; [|done]. apply IH.
Qed.
Lemma unwind_linear ex tr : linear_ext (fun o => unwind o ex tr) (unwind_ev ex tr).
Proof.
  eapply linear_ext_ext; [|apply linear_of_loop]. intros o z. unfold unwind; simpl.
  destruct (entries o z); simpl; [|done]. apply unwind_loop_eq.
Qed.

Lemma pts_inner_eq sel c ds : forall acc,
  pts_inner sel c acc ds = (fss ← mapM sel ds; add_all acc (map (fun d' => (d', c)) (concat fss))).
Proof.
  induction ds as [|d ds IH]; intros acc; simpl; [done|].
  destruct (sel d) as [fs|]; simpl; [|done].
  destruct (add_all acc (map _ fs)) as [acc'|] eqn:E; simpl.
  - rewrite IH. destruct (mapM sel ds) as [fss|]; simpl; [|done].
    rewrite map_app, add_all_app, E. done.
  - destruct (mapM sel ds) as [fss|]; simpl; [|done]. rewrite map_app, add_all_app, E. done.
Qed.
Lemma pts_loop_eq pe se es : forall acc, pts_loop pe se acc es = lin_loop (pts_ev pe se) acc es.
Proof.
  induction es as [|[d c] es IH]; intros acc; simpl; [done|]. change (pts_ev pe se d) with (ds ← pe d; fss ← mapM se ds; Some (concat fss)).
  destruct (pe d) as [ds|]; simpl; [|done].
  rewrite pts_inner_eq. destruct (mapM se ds) as [fss|]; simpl; [|done].
  destruct (add_all acc _) as [acc'|]; simpl; [|done]. apply IH.
Qed.
Lemma proj_then_sel_linear pe se : linear_ext (fun o => proj_then_sel o pe se) (pts_ev pe se).
Proof.
  eapply linear_ext_ext; [|apply linear_of_loop]. intros o z. unfold proj_then_sel; simpl.
  destruct (entries o z); simpl; [|done]. apply pts_loop_eq.
Qed.

Lemma stp_inner_eq pes c ds : forall acc,
  stp_inner pes c acc ds = (ds' ← mapM (proj_chain pes) ds; add_all acc (map (fun d' => (d', c)) ds')).
Proof.
  induction ds as [|d ds IH]; intros acc; simpl; [done|].
  destruct (proj_chain pes d) as [d'|]; simpl; [|done].
  destruct (add_doc acc d' c) as [acc'|] eqn:E; simpl.
  - rewrite IH. destruct (mapM (proj_chain pes) ds) as [ds'|]; simpl; [|done]. by rewrite E.
  - destruct (mapM (proj_chain pes) ds) as [ds'|]; simpl; [|done]. by rewrite E.
Qed.
Lemma stp_loop_eq sel pes es : forall acc, stp_loop sel pes acc es = lin_loop (stp_ev sel pes) acc es.
Proof.
  induction es as [|[d c] es IH]; intros acc; simpl; [done|]. change (stp_ev sel pes d) with (ds ← match sel with Some s => s d | None => Some [d] end; mapM (proj_chain pes) ds).
  destruct (match sel with Some s => s d | None => Some [d] end) as [ds|]; simpl; [|done].
  rewrite stp_inner_eq. destruct (mapM (proj_chain pes) ds) as [ds'|]; simpl; [|done].
  destruct (add_all acc _) as [acc'|]; simpl; [|done]. apply IH.
Qed.
Lemma sel_then_projs_linear sel pes : linear_ext (fun o => sel_then_projs o sel pes) (stp_ev sel pes).
Proof.
  eapply linear_ext_ext; [|apply linear_of_loop]. intros o z. unfold sel_then_projs; simpl.
  destruct (entries o z); simpl; [|done]. apply stp_loop_eq.
Qed.

(** ** Consequences of linearity *)
Section lin.
Variables (f : order -> zset -> option zset) (ev : evaluator).
Hypothesis (Hf : linear_ext f ev) (Hev : ev_ok ev).

Lemma linear_wf o z z' : order_ok o -> zwf z -> f o z = Some z' -> zwf z'.
Proof. intros Ho W E. eapply Hf; eauto. Qed.

Lemma linear_order o1 o2 a b : order_ok o1 -> order_ok o2 -> zwf a -> zwf b -> zeq a b ->
  res_eq (f o1 a) (f o2 b).
Proof.
  intros H1 H2 Wa Wb E.
  destruct (Hf o1 a H1 Wa) as [S1 M1], (Hf o2 b H2 Wb) as [S2 M2].
  assert (SS : is_Some (f o1 a) <-> is_Some (f o2 b)).
  { rewrite S1, S2. split; intros H k d Hd.
    - assert (Hk : key d = Some k) by by eapply (wf_key _ Wb).
      assert (counts a = counts b) as EC by by apply wf_zeq_counts.
      destruct (proj2 (wf_lookup_docs a k Wa)) as [d' Hd'].
      { rewrite EC. apply (wf_lookup_docs b k Wb). eauto. }
      eapply (ev_ok_good ev d'); eauto. by eapply (wf_key _ Wa).
    - assert (Hk : key d = Some k) by by eapply (wf_key _ Wa).
      assert (counts a = counts b) as EC by by apply wf_zeq_counts.
      destruct (proj2 (wf_lookup_docs b k Wb)) as [d' Hd'].
      { rewrite <- EC. apply (wf_lookup_docs a k Wa). eauto. }
      eapply (ev_ok_good ev d'); eauto. by eapply (wf_key _ Wb). }
  destruct (f o1 a) as [x|] eqn:E1, (f o2 b) as [y|] eqn:E2; simpl; try done.
  - intros k. destruct (M1 x eq_refl) as [_ ->], (M2 y eq_refl) as [_ ->].
    apply zsum_ext; auto using ev_ok_congr.
  - destruct SS as [SS _]. destruct SS; eauto. done.
  - destruct SS as [_ SS]. destruct SS; eauto. done.
Qed.

Lemma linear_add o o1 o2 o3 a b s fa fb :
  order_ok o -> order_ok o1 -> order_ok o2 -> order_ok o3 -> zwf a -> zwf b ->
  zadd o a b = Some s -> f o1 a = Some fa -> f o2 b = Some fb ->
  exists fs, f o3 s = Some fs /\ zwf fs /\ forall k, zcount fs k = zcount fa k + zcount fb k.
Proof.
  intros Ho H1 H2 H3 Wa Wb Es Ea Eb.
  destruct (zadd_spec o a b) as (s' & Es' & Ws & Ms); auto. assert (s' = s) as -> by congruence.
  destruct (Hf o1 a H1 Wa) as [S1 M1], (Hf o2 b H2 Wb) as [S2 M2], (Hf o3 s H3 Ws) as [S3 M3].
  assert (is_Some (f o3 s)) as [fs Efs].
  { apply S3. intros k d Hd. assert (Hk : key d = Some k) by by eapply (wf_key _ Ws).
    assert (zcount s k <> 0) as Hnz.
    { destruct (proj1 (wf_lookup_docs s k Ws)) as [c Hc]; [eauto|]. unfold zcount. rewrite Hc. by eapply (wf_nz _ Ws). }
    rewrite Ms in Hnz.
    assert (zcount a k <> 0 \/ zcount b k <> 0) as [Hn|Hn] by lia; unfold zcount in Hn.
    - destruct (counts a !! k) eqn:Ec; [|done]. destruct (proj2 (wf_lookup_docs a k Wa)) as [d' Hd']; [eauto|].
      eapply (ev_ok_good ev d'); eauto; [by eapply (wf_key _ Wa)|]. eapply S1; eauto.
    - destruct (counts b !! k) eqn:Ec; [|done]. destruct (proj2 (wf_lookup_docs b k Wb)) as [d' Hd']; [eauto|].
      eapply (ev_ok_good ev d'); eauto; [by eapply (wf_key _ Wb)|]. eapply S2; eauto. }
  exists fs. split; [done|]. destruct (M3 fs Efs) as [Wf M3']. split; [done|]. intros k. rewrite M3'.
  destruct (M1 fa Ea) as [_ ->], (M2 fb Eb) as [_ ->].
  apply zsum_add; auto using ev_ok_congr.
Qed.

Lemma linear_sub o o1 o2 o3 a b s fa fb :
  order_ok o -> order_ok o1 -> order_ok o2 -> order_ok o3 -> zwf a -> zwf b ->
  zsub o a b = Some s -> f o1 a = Some fa -> f o2 b = Some fb ->
  exists fs, f o3 s = Some fs /\ zwf fs /\ forall k, zcount fs k = zcount fa k - zcount fb k.
Proof.
  intros Ho H1 H2 H3 Wa Wb Es Ea Eb.
  destruct (zsub_spec o a b) as (s' & Es' & Ws & Ms); auto. assert (s' = s) as -> by congruence.
  destruct (Hf o1 a H1 Wa) as [S1 M1], (Hf o2 b H2 Wb) as [S2 M2], (Hf o3 s H3 Ws) as [S3 M3].
  assert (is_Some (f o3 s)) as [fs Efs].
  { apply S3. intros k d Hd. assert (Hk : key d = Some k) by by eapply (wf_key _ Ws).
    assert (zcount s k <> 0) as Hnz.
    { destruct (proj1 (wf_lookup_docs s k Ws)) as [c Hc]; [eauto|]. unfold zcount. rewrite Hc. by eapply (wf_nz _ Ws). }
    rewrite Ms in Hnz.
    assert (zcount a k <> 0 \/ zcount b k <> 0) as [Hn|Hn] by lia; unfold zcount in Hn.
    - destruct (counts a !! k) eqn:Ec; [|done]. destruct (proj2 (wf_lookup_docs a k Wa)) as [d' Hd']; [eauto|].
      eapply (ev_ok_good ev d'); eauto; [by eapply (wf_key _ Wa)|]. eapply S1; eauto.
    - destruct (counts b !! k) eqn:Ec; [|done]. destruct (proj2 (wf_lookup_docs b k Wb)) as [d' Hd']; [eauto|].
      eapply (ev_ok_good ev d'); eauto; [by eapply (wf_key _ Wb)|]. eapply S2; eauto. }
  exists fs. split; [done|]. destruct (M3 fs Efs) as [Wf M3']. split; [done|]. intros k. rewrite M3'.
  destruct (M1 fa Ea) as [_ ->], (M2 fb Eb) as [_ ->].
  apply zsum_sub; auto using ev_ok_congr.
Qed.

Lemma linear_empty o : order_ok o -> exists z, f o zempty = Some z /\ zis_zero z = true.
Proof.
  intros Ho. destruct (Hf o zempty Ho wf_empty) as [S M].
  assert (is_Some (f o zempty)) as [z Ez].
  { apply S. intros k d. simpl. by rewrite lookup_empty. }
  exists z. split; [done|]. destruct (M z Ez) as [W Mz].
  unfold zis_zero. apply bool_decide_eq_true. apply map_eq. intros k. rewrite lookup_empty.
  destruct (counts z !! k) as [c|] eqn:Ec; [|done]. exfalso. apply (wf_nz _ W k c Ec).
  specialize (Mz k). unfold zcount in Mz at 1. rewrite Ec in Mz. simpl in Mz. rewrite Mz.
  unfold zsum. simpl. by rewrite map_to_list_empty.
Qed.

(** Feeding deltas one at a time accumulates to evaluating the whole. *)
Lemma linear_stream zs : forall outs a o, order_ok o -> is_total a zs -> Forall zwf zs ->
  Forall2 (fun z y => exists o, order_ok o /\ f o z = Some y) zs outs ->
  exists y, f o a = Some y /\ is_total y outs.
Proof.
  intros outs a o Ho [Wa Ma] Wzs F.
  destruct (Hf o a Ho Wa) as [S M].
  assert (is_Some (f o a)) as [y Ey].
  { apply S. intros k d Hd. assert (Hk : key d = Some k) by by eapply (wf_key _ Wa).
    assert (zcount a k <> 0) as Hnz.
    { destruct (proj1 (wf_lookup_docs a k Wa)) as [c Hc]; [eauto|]. unfold zcount. rewrite Hc. by eapply (wf_nz _ Wa). }
    rewrite Ma in Hnz. clear -Hnz Wzs F Hf Hev Hk.
    induction F as [|z y zs ys (o & Ho & E) F IH]; [done|].
    unfold total in *. simpl in Hnz. apply Forall_cons in Wzs as [Wz Wzs].
    destruct (decide (zcount z k = 0)) as [H0|H0]; [apply IH; [done|lia]|].
    unfold zcount in H0. destruct (counts z !! k) eqn:Ec; [|done].
    destruct (proj2 (wf_lookup_docs z k Wz)) as [d' Hd']; [eauto|].
    eapply (ev_ok_good ev d'); eauto; [by eapply (wf_key _ Wz)|].
    destruct (Hf o z Ho Wz) as [S _]. eapply S; eauto. }
  exists y. split; [done|]. destruct (M y Ey) as [Wy My]. split; [done|].
  intros k. rewrite My.
  assert (forall a, zwf a -> (forall k, zcount a k = total zs k) ->
     zsum (fun d => occ k (ev_out ev d)) a = total outs k) as G; [|by apply G].
  clear -F Wzs Hf Hev. induction F as [|z y zs ys (o & Ho & E) F IH]; intros a Wa Ma.
  - unfold total in *; simpl in *. apply zsum_zero; auto using ev_ok_congr.
  - apply Forall_cons in Wzs as [Wz Wzs]. unfold total in *; simpl in *.
    destruct (zsub_spec std_order a z std_order_ok Wa Wz) as (a' & _ & Wa' & Ma').
    rewrite <- (IH Wzs a' Wa').
    2:{ intros k'. rewrite Ma', Ma. lia. }
    destruct (Hf o z Ho Wz) as [_ My]. destruct (My y E) as [_ ->].
    apply zsum_add; auto using ev_ok_congr. intros k'. rewrite Ma'. lia.
Qed.
End lin.

End ops.
