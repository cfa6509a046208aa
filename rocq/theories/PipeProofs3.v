(** Determinism over interleavings (C23), pipelines that keep names (C19), Sync (C21). *)
From Verif Require Import JsonModel ObjModel ZSetModel OpsModel ExecModel PipelineModel ZSetSpec OpsSpec GatherSpec ExecSpec JsonSpec CleanSpec PipelineSpec.
From Verif Require Import JsonProofs JsonIdent CleanProofs ZSetProofs ZSetProofs2 OpsProofs StreamProofs JoinProofs ChainProofs2 OptProofs IncrProofs IncrProofs2 GatherProofs GatherDet ExecMisc ReconcileProofs ObjProofs ConvertProofs TargetProofs PipeProofs PipeProofs2.

(** ** The result is determined by the inputs *)
Lemma exec_scratch_unique {DD : Docs} sortv kinds join ps g acc1 acc2 B1 B2 :
  pipeline_graph kinds join ps = Some g -> forallb user_op ps = true -> Forall (op_posdet sortv) ps ->
  (forall jev, join = Some jev -> jev_ok jev) ->
  (forall kd, kd ∈ kinds -> exists a1 a2, acc1 !! kd = Some a1 /\ acc2 !! kd = Some a2 /\ zwf a1 /\ zwf a2 /\ nonneg a1 /\ nonneg a2 /\ zeq a1 a2) ->
  NoDup kinds -> exec_scratch sortv g acc1 B1 -> exec_scratch sortv g acc2 B2 -> zeq B1 B2.
Proof.
  intros Hg Hu Hd Hj Ha ND (zs1 & J1 & M1 & HJ1 & S1) (zs2 & J2 & M2 & HJ2 & S2). pose proof (pipeline_graph_eq _ _ _ _ Hg) as ->.
  cbn [g_inputs g_join g_chain] in *. unfold input_names in *. rewrite add_inputs_nodup in M1, M2 by done.
  assert (E0 : map cn_op (user_chain ps) = ps) by (unfold user_chain; by rewrite map_map, map_id). rewrite E0 in S1, S2.
  assert (HL : Forall zwf zs1 /\ Forall zwf zs2 /\ Forall nonneg zs1 /\ Forall nonneg zs2 /\ Forall2 zeq zs1 zs2).
  { clear -Ha M1 M2. revert zs1 zs2 M1 M2. induction kinds as [|kd kinds IH]; simpl; intros zs1 zs2 M1 M2.
    - injection M1 as <-. injection M2 as <-. done.
    - destruct (Ha kd) as (a1 & a2 & E1 & E2 & H); [by left|]. rewrite E1 in M1. rewrite E2 in M2. simpl in *.
      destruct (mapM _ kinds) as [r1|]; [|done]. destruct (mapM (fun n => acc2 !! n) kinds) as [r2|]; [|done]. injection M1 as <-. injection M2 as <-.
      destruct (IH (fun kd' Hk => Ha kd' (elem_of_list_further _ _ _ Hk)) r1 r2 eq_refl eq_refl) as (A1 & A2 & A3 & A4 & A5).
      split_and!; constructor; naive_solver. }
  destruct HL as (W1 & W2 & N1 & N2 & EZ).
  assert (HJ : zwf J2 /\ nonneg J2 /\ zeq J1 J2).
  { destruct join as [jev|]; cbn [fmap option_fmap option_map] in *.
    - destruct HJ1 as (o1 & Ho1 & HJ1), HJ2 as (o2 & Ho2 & HJ2).
      pose proof (join_snapshot_order jev (length kinds) o1 o2 zs1 zs2 (Hj jev eq_refl) Ho1 Ho2 W1 W2 EZ) as HR.
      rewrite HJ1, HJ2 in HR. destruct (join_nonneg _ _ _ _ _ Ho2 W2 N2 HJ2) as [? ?]. done.
    - destruct zs1 as [|z1 zs1], zs2 as [|z2 zs2]; try done. simpl in *. injection HJ1 as ->. injection HJ2 as ->.
      apply Forall_cons in W2 as [? _], N2 as [? _]. inversion EZ; subst. done. }
  destruct HJ as (WJ & NJ & EJ).
  destruct (scratch_run_pos sortv ps Hd Hu J1 B1 S1 J2 std_order 0%nat) as (C1 & E1 & Z1 & _); auto using std_order_ok.
  destruct (scratch_run_pos sortv ps Hd Hu J2 B2 S2 J2 std_order 0%nat) as (C2 & E2 & Z2 & _); auto using std_order_ok; [done|].
  rewrite E1 in E2. injection E2 as ->. etrans; [exact Z1|by symmetry].
Qed.

Lemma lsum_unique {A} (f : A -> Z) (l : list A) x : NoDup l -> In x l -> (forall y, In y l -> y <> x -> f y = 0) -> lsum f l = f x.
Proof.
  intros ND Hx H0. apply elem_of_list_In, elem_of_Permutation in Hx as [l' Hl]. rewrite (lsum_perm f _ _ Hl). simpl.
  rewrite Hl in ND. apply NoDup_cons in ND as [Hn _].
  assert (lsum f l' = 0); [|lia].
  assert (Hs : forall y, In y l' -> f y = 0).
  { intros y Hy. apply H0; [apply elem_of_list_In; rewrite Hl; right; by apply elem_of_list_In|]. intros ->. apply Hn. by apply elem_of_list_In. }
  clear -Hs. induction l' as [|y l' IH]; simpl; [done|]. rewrite Hs by (by left). rewrite IH; [done|]. intros; apply Hs; by right.
Qed.
Definition fun_gen {DD : Docs} (nm : doc -> option oname) (B : zset) : Prop :=
  (forall k d, docs B !! k = Some d -> zcount B k = 1 /\ exists i, nm d = Some i /\ plain i)
  /\ (forall k1 k2 d1 d2 i, docs B !! k1 = Some d1 -> docs B !! k2 = Some d2 -> nm d1 = Some i -> nm d2 = Some i -> k1 = k2).
Lemma zdoc {DD : Docs} B k d : zwf B -> docs B !! k = Some d -> key d = Some k /\ zcount B k <> 0.
Proof.
  intros W Hd. split; [by eapply wf_key|]. unfold zcount. assert (is_Some (counts B !! k)) as [c Hc].
  { rewrite <-elem_of_dom. rewrite <-(wf_dom _ W). apply elem_of_dom. by exists d. }
  rewrite Hc. simpl. by eapply wf_nz.
Qed.
Lemma occ_map {DD : Docs} {A} (f : A -> doc) k l : occ k (map f l) = lsum (fun e => if decide (key (f e) = Some k) then 1 else 0) l.
Proof. induction l as [|e l IH]; [done|]. unfold occ in *. simpl. by rewrite IH. Qed.
Lemma linear_keeps {DD : Docs} (nm : doc -> option oname) f ev o A B : (forall a b k, key a = Some k -> key b = Some k -> a = b) -> linear_ext f ev ->
  (forall d l, ev d = Some l -> (length l <= 1)%nat /\ forall d', In d' l -> nm d' = nm d) ->
  order_ok o -> zwf A -> fun_gen nm A -> f o A = Some B -> fun_gen nm B.
Proof.
  intros Hex L HE Ho WA [F1 F2] E. destruct (L o A Ho WA) as [_ HB]. destruct (HB B E) as [WB CB]. clear HB L.
  (* every document of the result comes from one document *)
  assert (G : forall k d, docs B !! k = Some d -> exists k0 d0, docs A !! k0 = Some d0 /\ nm d = nm d0 /\ zcount B k = 1 /\ ev d0 = Some [d]).
  { intros k d Hd. destruct (zdoc _ _ _ WB Hd) as [Hk Hn]. rewrite (CB k) in Hn |- *. unfold zsum in *.
    set (g := fun kd : ident * doc => zcount A kd.1 * occ k (ev_out ev kd.2)) in *.
    assert (exists x, In x (map_to_list (docs A)) /\ g x <> 0) as ([k0 d0] & Hin & Hg).
    { clear -Hn. induction (map_to_list (docs A)) as [|x l IH]; [done|]. simpl in Hn. destruct (decide (g x = 0)) as [E0|E0].
      - destruct IH as (y & ? & ?); [change (g x + lsum g l <> 0) in Hn; lia|]. exists y. split; [by right|done].
      - exists x. split; [by left|done]. }
    assert (Hd0 : docs A !! k0 = Some d0) by (by apply elem_of_list_In, elem_of_map_to_list in Hin).
    destruct (F1 k0 d0 Hd0) as (C0 & i & Hi & Hp).
    assert (Hout : forall d1, occ k (ev_out ev d1) <> 0 -> ev d1 = Some [d] /\ nm d = nm d1).
    { intros d1 Ho1. unfold ev_out in Ho1. destruct (ev d1) as [l|] eqn:El; [|done]. simpl in Ho1.
      destruct (HE d1 l El) as [Hlen Hid]. destruct l as [|d2 [|? ?]]; simpl in Hlen; [done| |lia].
      unfold occ in Ho1. simpl in Ho1. case_decide as Hk2; [|done].
      assert (d2 = d) by (exact (Hex d2 d k Hk2 Hk)). subst d2. split; [done|]. apply Hid. by left. }
    assert (Ho0 : occ k (ev_out ev d0) <> 0) by (unfold g in Hg; simpl in Hg; lia).
    destruct (Hout d0 Ho0) as [Ev0 Hid0].
    exists k0, d0. split_and!; [done|done| |done].
    change (lsum g (map_to_list (docs A)) = 1). rewrite (lsum_unique g (map_to_list (docs A)) (k0, d0)); [|apply NoDup_map_to_list|done|].
    - unfold g. simpl. rewrite C0. unfold ev_out. rewrite Ev0. simpl. unfold occ. simpl. rewrite decide_True by done. lia.
    - intros [k1 d1] Hin1 Hne. unfold g. simpl. destruct (decide (occ k (ev_out ev d1) = 0)) as [->|Ho1]; [lia|]. exfalso.
      destruct (Hout d1 Ho1) as [_ Hid1]. apply elem_of_list_In, elem_of_map_to_list in Hin1.
      assert (k0 = k1) by (eapply (F2 k0 k1 d0 d1 i); [done|done|done|]; congruence). subst k1.
      apply Hne. f_equal. assert (Some d1 = Some d0) as [= ->] by (by rewrite <-Hin1, <-Hd0). done. }
  split.
  - intros k d Hd. destruct (G k d Hd) as (k0 & d0 & Hd0 & Hid & C & _). split; [done|]. rewrite Hid. by apply (F1 k0 d0).
  - intros k1 k2 d1 d2 i H1 H2 I1 I2. destruct (G k1 d1 H1) as (k3 & d3 & H3 & Hid3 & _ & E3). destruct (G k2 d2 H2) as (k4 & d4 & H4 & Hid4 & _ & E4).
    assert (k3 = k4) by (eapply (F2 k3 k4 d3 d4 i); congruence). subst k4. assert (d3 = d4) by congruence. subst d4.
    assert (d1 = d2) by congruence. subst d2.
    destruct (zdoc _ _ _ WB H1) as [K1 _], (zdoc _ _ _ WB H2) as [K2 _]. assert (Some k1 = Some k2) as [= ->]; [|done]. exact (eq_trans (eq_sym K1) K2).
Qed.
Section pipe.
Context {FF : FloatFmt}.
Variable P : jobj -> bool.
#[local] Hint Extern 0 Docs => exact (json_docs_on P) : typeclass_instances.
Variable sortv : list json -> list json.
#[local] Notation xp := (@exec_process (json_docs_on P) sortv).
#[local] Notation xr := (@exec_run (json_docs_on P) sortv).
#[local] Notation xs := (@exec_scratch (json_docs_on P) sortv).

Lemma inputs_nonneg (a : @zset (json_docs_on P)) l : (forall k : string, zcount a k = occ k l) -> nonneg a.
Proof. intros H k. rewrite (H k). apply occ_nonneg. Qed.
Lemma shows_eq target (B1 B2 : @zset (json_docs_on P)) T1 T2 : exact P -> zwf B1 -> zwf B2 -> zeq B1 B2 ->
  shows P target B1 T1 -> shows P target B2 T2 -> forall i, T1 i = T2 i.
Proof.
  intros [Hex _] W1 W2 E S1 S2 i.
  assert (D : forall (k : string) d, docs B1 !! k = Some d <-> docs B2 !! k = Some d).
  { intros k d. specialize (E k). split; intros Hd.
    - destruct (zwf_doc P _ _ _ W1 Hd) as [Hk Hn]. destruct (zwf_nz P B2 k W2) as [d' Hd']; [lia|].
      destruct (zwf_doc P _ _ _ W2 Hd') as [Hk' _]. by rewrite (Hex d d' k Hk Hk').
    - destruct (zwf_doc P _ _ _ W2 Hd) as [Hk Hn]. destruct (zwf_nz P B1 k W1) as [d' Hd']; [lia|].
      destruct (zwf_doc P _ _ _ W1 Hd') as [Hk' _]. by rewrite (Hex d d' k Hk Hk'). }
  assert (G : forall m, T1 i = Some m <-> T2 i = Some m).
  { intros m. rewrite (S1 i m), (S2 i m). by setoid_rewrite D. }
  destruct (T1 i) as [m|] eqn:E1; [symmetry; by apply G|]. destruct (T2 i) as [m|] eqn:E2; [|done]. symmetry. by rewrite <-(proj2 (G m) eq_refl).
Qed.
Lemma scratch_wf (ps : list (@op (json_docs_on P))) a b : @scratch (json_docs_on P) sortv ps a b -> zwf b.
Proof. by induction 1. Qed.
Lemma exec_scratch_wf g acc B : xs g acc B -> zwf B.
Proof. intros (zs & J & _ & _ & S). by eapply scratch_wf. Qed.

Lemma c23_core target sources join ps g p o1 o2 ds1 ds2 p1 p2 outs1 outs2 :
  exact P -> gvk_ok target -> sources <> [] -> NoDup (map gvk_kind sources) ->
  forallb user_op ps = true -> Forall op_ok ps -> Forall (@op_posdet (json_docs_on P) sortv) ps -> (forall jev, join = Some jev -> jev_ok jev) ->
  pipe_new P target sources join ps = Some p -> pipeline_graph (map gvk_kind sources) join ps = Some g ->
  order_ok o1 -> order_ok o2 -> history_ok P sources ∅ ds1 -> history_ok P sources ∅ ds2 ->
  (forall x, List.filter (about x) ds1 = List.filter (about x) ds2) ->
  pipe_run P sortv o1 0 p ds1 = (p1, map Some outs1) -> pipe_run P sortv o2 0 p ds2 = (p2, map Some outs2) ->
  (forall pre post acc B, ds1 = pre ++ post \/ ds2 = pre ++ post -> inputs_of P (after pre) (map gvk_kind sources) acc -> xs g acc B -> functional P B) ->
  forall i, apply_ops no_objects (concat outs1) i = apply_ops no_objects (concat outs2) i.
Proof.
  intros Hex Hg Hs ND Hu Hok Hd Hj Hp Hgr Ho1 Ho2 H1 H2 HI R1 R2 HF.
  destruct (c19_core P sortv target sources join ps g p o1 ds1 p1 outs1) as (acc1 & B1 & I1 & X1 & S1 & _); eauto.
  destruct (c19_core P sortv target sources join ps g p o2 ds2 p2 outs2) as (acc2 & B2 & I2 & X2 & S2 & _); eauto.
  rewrite (after_interleave _ _ HI) in I1.
  apply (shows_eq target B1 B2); eauto using exec_scratch_wf.
  eapply (@exec_scratch_unique (json_docs_on P) sortv (map gvk_kind sources) join ps g acc1 acc2); eauto.
  intros kd Hk. destruct (I1 kd Hk) as (a1 & E1 & W1 & C1), (I2 kd Hk) as (a2 & E2 & W2 & C2).
  exists a1, a2. split_and!; try done; [by eapply inputs_nonneg|by eapply inputs_nonneg|].
  intros k. exact (eq_trans (C1 k) (eq_sym (C2 k))).
Qed.

(** ** Pipelines that keep names *)
Lemma functional_eq (A B : @zset (json_docs_on P)) : exact P -> zwf A -> zwf B -> zeq A B -> functional P A -> functional P B.
Proof.
  intros [Hex _] WA WB E [F1 F2].
  assert (D : forall (k : string) d, docs B !! k = Some d -> docs A !! k = Some d).
  { intros k d Hd. destruct (zwf_doc P _ _ _ WB Hd) as [Hk Hn]. specialize (E k). destruct (zwf_nz P A k WA) as [d' Hd']; [lia|].
    destruct (zwf_doc P _ _ _ WA Hd') as [Hk' _]. by rewrite (Hex d d' k Hk Hk'). }
  split.
  - intros k d Hd. specialize (E k). destruct (F1 k d (D _ _ Hd)) as (? & ?). split; [lia|done].
  - intros k1 k2 d1 d2 i H1 H2. eauto.
Qed.
Lemma scratch_keeps (ps : list (@op (json_docs_on P))) : exact P -> Forall (keeps_names P) ps -> forall A B, zwf A -> functional P A -> @scratch (json_docs_on P) sortv ps A B -> functional P B.
Proof.
  intros Hex. induction 1 as [|p ps Hp Hps IH]; intros A B WA FA HS; inversion HS; subst.
  - by eapply (functional_eq A B).
  - match goal with H : zeq A ?x |- _ => assert (Fx : functional P x) by (by eapply (functional_eq A x)) end.
    match goal with H : (process sortv ?o p ?x).2 = Some ?y |- _ =>
      assert (Hy : zwf y /\ functional P y); [|by eapply (IH y B); [apply Hy|apply Hy|]];
      rename H into EP; rename x into x0; rename o into o0; rename y into y0 end.
    destruct p; try done; simpl in EP.
    + split; [by eapply (project_linear ev o0 x0)|]. eapply (linear_keeps (DD := json_docs_on P) doc_id (fun o => project o ev) ev o0 x0); eauto; [apply Hex|apply project_linear].
    + split; [by eapply (select_linear ev o0 x0)|]. eapply (linear_keeps (DD := json_docs_on P) doc_id (fun o => select o ev) ev o0 x0); eauto; [apply Hex|apply select_linear].
Qed.
Lemma doc_obj_id m i : doc_id m = Some i -> obj_id m = i.
Proof.
  unfold doc_id, obj_id, get_namespace, get_name, nested_str. cbn [nested_get]. destruct (mget m "metadata") as [[]|]; try done.
  intros (ns & Hns & E)%bind_Some. destruct (mget m0 "name") as [[]|]; try done. case_decide; [done|]. injection E as <-. f_equal.
  destruct (mget m0 "namespace") as [[]|]; try done; by injection Hns as <-.
Qed.
Lemma world_functional source w a : exact P -> world_ok P [source] w -> (forall x m, w !! x = Some m -> is_Some (doc_id m)) ->
  zwf a -> (forall k : string, zcount a k = occ k (of_kind (gvk_kind source) w)) -> functional P a.
Proof.
  intros [Hex _] Ww HN Wa Ca.
  assert (G : forall (k : string) d, docs a !! k = Some d -> zcount a k = 1 /\ exists x, w !! x = Some d).
  { intros k d Hd. destruct (zwf_doc P _ _ _ Wa Hd) as [Hk Hn]. rewrite (Ca k) in Hn |- *. unfold of_kind in *.
    set (L := List.filter _ (map_to_list w)) in *.
    assert (HL : forall e, In e L -> w !! e.1 = Some e.2).
    { intros [x m] He. apply filter_In in He as [He _]. by apply elem_of_list_In, elem_of_map_to_list in He. }
    assert (NL : NoDup L). { apply NoDup_ListNoDup, List.NoDup_filter, NoDup_ListNoDup, NoDup_map_to_list. }
    rewrite (occ_map (DD := json_docs_on P)) in *.
    assert (exists e, In e L /\ @key (json_docs_on P) e.2 = Some k) as ([x m] & Hin & Hm).
    { clear -Hn. induction L as [|e l IH]; [done|]. simpl in Hn. case_decide as Hke; [exists e; split; [by left|done]|].
      destruct IH as (e' & ? & ?); [done|]. exists e'. split; [by right|done]. }
    simpl in Hm. assert (m = d) by (exact (Hex m d k Hm Hk)). subst m. pose proof (HL _ Hin) as Hx. simpl in Hx.
    split; [|by exists x]. rewrite (lsum_unique _ L (x, d)); [|done|done|].
    - simpl. by rewrite decide_True.
    - intros [x' m'] Hin' Hne. simpl. rewrite decide_False; [done|]. intros Hm'. apply Hne.
      assert (m' = d) by (exact (Hex m' d k Hm' Hk)). subst m'. f_equal. pose proof (HL _ Hin') as Hx'. simpl in Hx'.
      destruct (wo_id _ _ _ Ww _ _ Hx) as [-> _]. by destruct (wo_id _ _ _ Ww _ _ Hx') as [-> _]. }
  split.
  - intros k d Hd. destruct (G k d Hd) as (C & x & Hx). split; [done|]. destruct (HN x d Hx) as [i Hi]. exists i. split; [done|].
    destruct (wo_id _ _ _ Ww _ _ Hx) as (_ & Hp & _). by rewrite (doc_obj_id d i Hi) in Hp.
  - intros k1 k2 d1 d2 i H1 H2 I1 I2. destruct (G k1 d1 H1) as (_ & x1 & X1), (G k2 d2 H2) as (_ & x2 & X2).
    destruct (wo_id _ _ _ Ww _ _ X1) as (E1 & _ & S1), (wo_id _ _ _ Ww _ _ X2) as (E2 & _ & S2).
    apply elem_of_list_singleton in S1, S2.
    assert (x1 = x2). { rewrite E1, E2. unfold source_id. by rewrite S1, S2, (doc_obj_id d1 i I1), (doc_obj_id d2 i I2). }
    subst x2. assert (d1 = d2) by congruence. subst d2.
    destruct (zwf_doc P _ _ _ Wa H1) as [K1 _], (zwf_doc P _ _ _ Wa H2) as [K2 _]. assert (Some k1 = Some k2) as [= ->]; [|done]. exact (eq_trans (eq_sym K1) K2).
Qed.
Lemma named_after ds x m : named_history ds -> after ds !! x = Some m -> is_Some (doc_id m).
Proof.
  unfold after. assert (G : forall ds w, (forall x m, w !! x = Some m -> is_Some (doc_id m)) -> named_history ds ->
     forall x m, foldl apply_event w ds !! x = Some m -> is_Some (doc_id m)).
  { clear. induction ds as [|d ds IH]; intros w Hw HN x m; simpl; [apply Hw|]. apply Forall_cons in HN as [Hd HN]. apply IH; [|done].
    intros x' m'. unfold apply_event. destruct (d_type d); rewrite ?lookup_insert_Some, ?lookup_delete_Some; naive_solver. }
  intros HN. eapply G; [|done]. intros x' m' Hx. by rewrite lookup_empty in Hx.
Qed.
Lemma keeps_functional source ps g sources (ds pre post : list delta) acc B : exact P -> sources = [source] -> Forall (keeps_names P) ps ->
  pipeline_graph (map gvk_kind sources) None ps = Some g -> history_ok P sources ∅ ds -> named_history ds ->
  ds = pre ++ post -> inputs_of P (after pre) (map gvk_kind sources) acc -> xs g acc B -> functional P B.
Proof.
  intros Hex -> Hk Hg HH HN -> HI (zs & J & Em & HJ & HS). pose proof (pipeline_graph_eq _ _ _ _ Hg) as ->.
  cbn [g_inputs g_join g_chain] in *. unfold input_names in *. rewrite add_inputs_nodup in Em by apply NoDup_singleton.
  simpl in Em. destruct (HI (gvk_kind source)) as (a & Ea & Wa & Ca); [by left|]. rewrite Ea in Em. simpl in Em. injection Em as <-.
  simpl in HJ. injection HJ as <-.
  assert (E0 : map cn_op (user_chain ps) = ps) by (unfold user_chain; by rewrite map_map, map_id). rewrite E0 in HS.
  eapply (scratch_keeps ps Hex Hk a B Wa); [|done].
  apply history_app in HH as [HH _]. apply Forall_app in HN as [HN _].
  destruct (convert_run_ok P [source] pre ∅ ∅ (world_empty P _) mirrors_empty HH) as (src1 & zs1 & _ & _ & _ & Ww & _).
  eapply (world_functional source (after pre)); [done|done| |done|exact Ca]. intros x m. by apply named_after.
Qed.
End pipe.
