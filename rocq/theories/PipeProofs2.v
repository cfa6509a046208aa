(** Runs without errors, interleavings, and pipelines that keep names (C19, C23, C24). *)
From Verif Require Import JsonModel ObjModel ZSetModel OpsModel ExecModel PipelineModel ZSetSpec OpsSpec GatherSpec ExecSpec JsonSpec CleanSpec PipelineSpec.
From Verif Require Import JsonProofs JsonIdent CleanProofs ZSetProofs ZSetProofs2 OpsProofs OptProofs IncrProofs IncrProofs2 ReconcileProofs ObjProofs ConvertProofs TargetProofs PipeProofs.

Lemma exact_clean `{FloatFmt} : fmt_ok -> fmt_inj -> exact clean.
Proof.
  intros Hf Hi. split; simpl.
  - intros a b k Ha Hb. destruct (clean a) eqn:Ca, (clean b) eqn:Cb; try done. by eapply clean_key_inj.
  - intros a k Ha. destruct (clean a) eqn:Ca; [|done]. by apply clean_owf.
Qed.

(** ** Interleavings *)
Lemma after_lookup ds : forall w x, foldl apply_event w ds !! x = foldl apply_event w (List.filter (about x) ds) !! x.
Proof.
  assert (G : forall ds w w' x, w !! x = w' !! x -> foldl apply_event w ds !! x = foldl apply_event w' (List.filter (about x) ds) !! x).
  { clear. induction ds as [|d ds IH]; intros w w' x E; simpl; [done|]. unfold about at 1. case_bool_decide as H; simpl.
    - apply IH. unfold apply_event. rewrite H. by destruct (d_type d); rewrite ?lookup_insert, ?lookup_delete.
    - apply IH. rewrite <-E. unfold apply_event. by destruct (d_type d); rewrite ?lookup_insert_ne, ?lookup_delete_ne by done. }
  intros w x. by apply G.
Qed.
Lemma after_interleave ds1 ds2 : (forall x, List.filter (about x) ds1 = List.filter (about x) ds2) -> after ds1 = after ds2.
Proof. intros H. apply map_eq. intros x. unfold after. rewrite (after_lookup ds1), (after_lookup ds2). by rewrite H. Qed.

Section pipe.
Context {FF : FloatFmt}.
Variable P : jobj -> bool.
#[local] Hint Extern 0 Docs => exact (json_docs_on P) : typeclass_instances.
Variable sortv : list json -> list json.
#[local] Notation xp := (@exec_process (json_docs_on P) sortv).
#[local] Notation xr := (@exec_run (json_docs_on P) sortv).
#[local] Notation xs := (@exec_scratch (json_docs_on P) sortv).

(** ** Runs without errors *)
Fixpoint trun (o : order) (n : nat) (target : gvk) (tgt : store) (ys : list (@zset (json_docs_on P))) : store * list (option (list delta)) :=
  match ys with
  | [] => (tgt, [])
  | y :: ys =>
      match convert_zset P (osub (osub o n) 1) target y with
      | None => let '(tgt2, rs) := trun o (S n) target tgt ys in (tgt2, None :: rs)
      | Some ds =>
          let '(tgt1, r) := reconcile P (osub (osub o n) 2) tgt ds in
          let '(tgt2, rs) := trun o (S n) target tgt1 ys in (tgt2, r :: rs)
      end
  end.
Lemma pipe_run_intro o ds : forall n p src zs g' ys tgt' rs,
  convert_run P (p_src P p) ds = (src, map Some zs) ->
  xr (sub_exec P o) n (p_graph P p) (zip_with (step_inputs P (p_sources P p)) ds zs) = (g', map Some ys) ->
  trun o n (p_target P p) (p_tgt P p) ys = (tgt', rs) ->
  pipe_run P sortv o n p ds = (Pipe P (p_sources P p) (p_target P p) g' src tgt' (p_snap P p), rs).
Proof.
  induction ds as [|d ds IH]; intros n p src zs g' ys tgt' rs C X T.
  - simpl in C. injection C as <- C. destruct zs; [|done]. simpl in X. injection X as <- X. destruct ys; [|done].
    simpl in T. injection T as <- <-. by destruct p.
  - simpl in C. destruct (convert_delta P (p_src P p) d) as [src1 r] eqn:C1.
    destruct (convert_run P src1 ds) as [src2 rs2] eqn:C2. destruct zs as [|z zs]; [done|]. injection C as -> -> ->.
    simpl in X. rewrite sub_exec_osub in X.
    destruct (xp (osub (osub o n) 0) (p_graph P p) (step_inputs P (p_sources P p) d z)) as [g1 r1] eqn:X1.
    destruct (xr (sub_exec P o) (S n) g1 _) as [g2 rs1] eqn:X2. destruct ys as [|y ys]; [done|]. injection X as -> -> ->.
    simpl. unfold evaluate at 1. rewrite C1. cbv zeta.
    change (<[get_kind (d_obj d) := z]> (empty_inputs P (p_sources P (set_src P p src1)))) with (step_inputs P (p_sources P p) d z).
    cbn [set_src p_graph]. rewrite X1. 
    change (p_target P (set_graph P (set_src P p src1) g1)) with (p_target P p). change (p_tgt P (set_graph P (set_src P p src1) g1)) with (p_tgt P p).
    simpl in T. destruct (convert_zset P (osub (osub o n) 1) (p_target P p) y) as [dl|].
    + destruct (reconcile P (osub (osub o n) 2) (p_tgt P p) dl) as [tgt1 r].
      destruct (trun o (S n) (p_target P p) tgt1 ys) as [tgt2 rs2] eqn:T2. injection T as -> <-.
      match goal with |- context [pipe_run P sortv o (S n) ?q ds] => erewrite (IH (S n) q); [|exact C2|exact X2|exact T2] end. done.
    + destruct (trun o (S n) (p_target P p) (p_tgt P p) ys) as [tgt2 rs2] eqn:T2. injection T as -> <-.
      match goal with |- context [pipe_run P sortv o (S n) ?q ds] => erewrite (IH (S n) q); [|exact C2|exact X2|exact T2] end. done.
Qed.

Lemma feeds_step sources d (z : @zset (json_docs_on P)) : NoDup (map gvk_kind sources) -> zwf z -> get_kind (d_obj d) ∈ map gvk_kind sources ->
  feeds (map gvk_kind sources) (step_inputs P sources d z).
Proof.
  intros ND Wz Hk. unfold feeds, step_inputs. split; [|split].
  - rewrite <-size_dom. assert (E : dom (<[get_kind (d_obj d) := z]> (empty_inputs P sources)) = list_to_set (map gvk_kind sources) :> gset string).
    { apply set_eq. intros x. rewrite elem_of_dom, elem_of_list_to_set. destruct (decide (get_kind (d_obj d) = x)) as [<-|Hne].
      - rewrite lookup_insert. split; [done|by eexists].
      - rewrite lookup_insert_ne by done. rewrite empty_inputs_lookup. case_decide; [by split|]. split; [by intros [? ?]|done]. }
    rewrite E. by apply size_list_to_set.
  - intros nm Hnm. destruct (decide (get_kind (d_obj d) = nm)) as [<-|Hne]; [rewrite lookup_insert; by eexists|].
    rewrite lookup_insert_ne by done. rewrite empty_inputs_lookup, decide_True by done. by eexists.
  - intros nm x. destruct (decide (get_kind (d_obj d) = nm)) as [<-|Hne]; [rewrite lookup_insert; by intros [= <-]|].
    rewrite lookup_insert_ne by done. rewrite empty_inputs_lookup. case_decide; [|done]. intros [= <-]. apply wf_empty.
Qed.
Lemma feeds_steps sources (ND : NoDup (map gvk_kind sources)) ds : forall w zs, Forall zwf zs -> history_ok P sources w ds ->
  Forall (feeds (map gvk_kind sources)) (zip_with (step_inputs P sources) ds zs).
Proof.
  induction ds as [|d ds IH]; intros w [|z zs] Wz H; try constructor; apply Forall_cons in Wz as [Wz Wzs]; destruct H as [E H].
  - apply feeds_step; [done|done|]. destruct (event_doc P _ _ _ E) as (_ & _ & Hs & _ & _ & _ & _ & ->).
    apply elem_of_list_In, in_map, elem_of_list_In, Hs.
  - by eapply IH.
Qed.

(** What [target_step] needs is enough for success. *)
Lemma step_total target B0 B1 (y : @zset (json_docs_on P)) tgt o1 o2 :
  exact P -> gvk_ok target -> zwf B0 -> zwf B1 -> zwf y -> functional P B0 -> functional P B1 ->
  (forall k : string, zcount B1 k = zcount B0 k + zcount y k) -> order_ok o1 -> order_ok o2 ->
  exists ds tgt' out, convert_zset P o1 target y = Some ds /\ reconcile P o2 tgt ds = (tgt', Some out) /\ Forall raw_delta ds.
Proof.
  intros [Hex Hwf] Hg W0 W1 Wy F0 F1 HC Ho1 Ho2.
  assert (Hy : forall (k : string) d, docs y !! k = Some d -> exists i, doc_id d = Some i /\ plain i /\ owf d).
  { intros k d Hd. destruct (zwf_doc P _ _ _ Wy Hd) as [Hk Hnz]. specialize (HC k).
    assert (HH : forall B, zwf B -> functional P B -> zcount B k <> 0 -> exists i, doc_id d = Some i /\ plain i /\ owf d).
    { intros B W F Hn. destruct (zwf_nz P _ _ W Hn) as [d' Hd']. destruct (zwf_doc P _ _ _ W Hd') as [Hk' _].
      assert (d' = d) by (by eapply Hex). subst d'. destruct (proj1 F k d Hd') as (_ & i & Hi & Hp). exists i. split_and!; [done|done|]. by eapply Hwf. }
    destruct (decide (zcount B0 k = 0)); [apply (HH B1); [done|done|lia]|by apply (HH B0)]. }
  destruct (convert_zset_total P target o1 y Ho1 Wy) as [ds Ed].
  { intros k d Hd. destruct (Hy k d Hd) as (i & Hi & _). by exists i. }
  assert (Hraw : Forall raw_delta ds).
  { apply List.Forall_forall. intros x Hx. apply (convert_zset_in P target o1 y ds Ho1 Wy Ed) in Hx as (k & d & i & [Hd Hi] & ->).
    destruct (Hy k d Hd) as (i' & Hi' & Hp & Ho). assert (i' = i) by congruence. subst i'.
    split; [simpl; destruct (0 <? zcount y k); auto|]. simpl. destruct (encapsulate_ok target d i Ho Hg Hi) as (-> & _). done. }
  destruct (reconcile_ok P o2 tgt ds Ho2 Hraw) as (tgt' & out & Er & _).
  by exists ds, tgt', out.
Qed.
Lemma trun_total target o (Hex : exact P) (Hg : gvk_ok target) (Ho : order_ok o) (ys : list (@zset (json_docs_on P))) : forall n tgt B0,
  Forall zwf ys -> zwf B0 -> functional P B0 ->
  (forall n, (n <= length ys)%nat -> exists B : @zset (json_docs_on P), zwf B /\ functional P B /\ forall k : string, zcount B k = zcount B0 k + total (take n ys) k) ->
  exists tgt' outs, trun o n target tgt ys = (tgt', map Some outs).
Proof.
  induction ys as [|y ys IH]; intros n tgt B0 Wy W0 F0 HB; [by exists tgt, []|].
  apply Forall_cons in Wy as [Wy Wys]. destruct (HB 1%nat) as (B1 & W1 & F1 & C1); [simpl; lia|]. unfold total in C1. simpl in C1.
  destruct (step_total target B0 B1 y tgt (osub (osub o n) 1) (osub (osub o n) 2)) as (ds & tgt1 & out & E1 & E2 & _); auto using osub_ok.
  { intros k. rewrite C1. lia. }
  destruct (IH (S n) tgt1 B1) as (tgt2 & outs & E3); auto.
  { intros m Hm. destruct (HB (S m)) as (Bn & Wn & Fn & Cn); [simpl; lia|]. exists Bn. split_and!; [done|done|].
    intros k. rewrite Cn, C1. unfold total. simpl. lia. }
  exists tgt2, (out :: outs). simpl. by rewrite E1, E2, E3.
Qed.

Lemma c19_total target sources join ps g p o ds :
  exact P -> gvk_ok target -> sources <> [] -> NoDup (map gvk_kind sources) ->
  forallb user_op ps = true -> Forall op_ok ps -> Forall op_total ps -> (forall jev, join = Some jev -> jev_ok jev /\ jev_total jev) ->
  pipe_new P target sources join ps = Some p -> pipeline_graph (map gvk_kind sources) join ps = Some g ->
  order_ok o -> history_ok P sources ∅ ds ->
  (forall pre post acc B, ds = pre ++ post -> inputs_of P (after pre) (map gvk_kind sources) acc -> xs g acc B -> functional P B) ->
  exists p' outs, pipe_run P sortv o 0 p ds = (p', map Some outs).
Proof.
  intros Hex Hg Hs ND Hu Hok Ht Hj Hp Hgr Ho HH HF. set (kinds := map gvk_kind sources) in *.
  unfold pipe_new in Hp. apply bind_Some in Hp as (g1 & Hg1 & [= <-]). fold kinds in Hg1.
  assert (Hk : kinds <> []) by (by destruct sources).
  destruct (convert_history P sources ds HH) as (src & zs & C & Wz & _).
  assert (Lz : length zs = length ds).
  { clear -C. revert C. generalize (∅ : gmap gvk store). revert src zs. induction ds as [|d ds IH]; intros src zs s C; simpl in C.
    - injection C as _ C. by destruct zs.
    - destruct (convert_delta P s d) as [s1 r]. destruct (convert_run P s1 ds) as [s2 rs] eqn:E.
      destruct zs as [|z zs]; [done|]. injection C as _ _ ->. simpl. f_equal. by eapply IH. }
  destruct (@c13_total (json_docs_on P) sortv kinds join ps g1 (sub_exec P o) (zip_with (step_inputs P sources) ds zs)) as (ys & EY); auto using sub_exec_ok.
  { by eapply feeds_steps. }
  destruct (xr (sub_exec P o) 0 g1 (zip_with (step_inputs P sources) ds zs)) as [g' rs] eqn:X. simpl in EY. subst rs.
  assert (HP : forall n, (n <= length ds)%nat -> exists acc B, inputs_of P (after (take n ds)) kinds acc
     /\ xs g acc B /\ is_total B (take n ys) /\ Forall zwf (take n ys)).
  { intros n Hn. rewrite <-(take_drop n ds) in HH. apply history_app in HH as [HH1 _].
    destruct (convert_run_ok P sources (take n ds) ∅ ∅ (world_empty P _) mirrors_empty HH1) as (src1 & zs1 & E1 & Wz1 & _ & Ww & F1).
    pose proof C as C'. rewrite <-(take_drop n ds) in C'. destruct (convert_run_prefix P _ _ _ _ _ C') as (src1' & E1').
    rewrite E1 in E1'. injection E1' as _ E1'. rewrite take_length_le in E1' by done. apply (inj (map Some)) in E1'.
    assert (Hzip : zip_with (step_inputs P sources) ds zs = zip_with (step_inputs P sources) (take n ds) (take n zs) ++ zip_with (step_inputs P sources) (drop n ds) (drop n zs)).
    { rewrite <-zip_with_app by (rewrite !take_length; lia). by rewrite !take_drop. }
    pose proof X as X'. rewrite Hzip in X'. destruct (exec_run_prefix P sortv _ _ _ _ _ _ _ X') as (g2 & X1).
    rewrite zip_with_length_l_eq in X1 by (rewrite !take_length; lia). rewrite take_length_le in X1 by done.
    rewrite <-E1' in X1.
    destruct (inputs_exist P kinds (after (take n ds))) as (acc & Hacc).
    { intros kd m _ Hm. unfold of_kind in Hm. apply elem_of_list_In, in_map_iff in Hm as ([x m'] & <- & Hm).
      apply filter_In in Hm as [Hm _]. apply elem_of_list_In, elem_of_map_to_list in Hm.
      destruct (wo_doc _ _ _ Ww _ _ Hm) as (_ & Hc & HPm & _). destruct (clean_key P m' Hc HPm) as [k0 Hk0]. by exists k0. }
    destruct (@c13_core_wf (json_docs_on P) sortv kinds join ps g g1 (sub_exec P o) (zip_with (step_inputs P sources) (take n ds) zs1) (take n ys) g2 acc) as (B & HB & TB & Wy);
      auto using sub_exec_ok.
    { intros jev Hjev. by apply Hj. }
    { by apply steps_wf. }
    { intros kd Hkd. destruct (Hacc kd Hkd) as (a & Ea & Wa & Ca). exists a. split; [done|]. split; [done|].
      intros k. rewrite (column_fed P sources) by done. rewrite Ca. unfold after. rewrite F1. unfold of_kind. by rewrite map_to_list_empty. }
    exists acc, B. done. }
  assert (Ly : length ys = length ds).
  { apply exec_run_length in X. rewrite map_length, zip_with_length_l_eq in X by done. done. }
  assert (E0 : forall k : string, docs (@zempty (json_docs_on P)) !! k = None) by (intros; apply lookup_empty).
  assert (F0 : functional P zempty). { split; [intros k d Hd|intros k1 k2 d1 d2 i Hd]; by rewrite E0 in Hd. }
  destruct (HP (length ds)) as (_ & _ & _ & _ & _ & Wy); [done|]. rewrite <-Ly, firstn_all in Wy.
  destruct (trun_total target o Hex Hg Ho ys 0 ∅ zempty) as (tgt' & outs & T); auto using wf_empty.
  { intros n Hn. destruct (HP n) as (accn & Bn & Han & HBn & TBn & _); [lia|]. exists Bn. split_and!; [apply TBn| |].
    + eapply (HF (take n ds) (drop n ds)); [by rewrite take_drop|done|done].
    + intros k. rewrite zcount_empty. apply TBn. }
  eexists _, outs. by eapply (pipe_run_intro o ds 0 (Pipe P sources target g1 ∅ ∅ None)); eauto.
Qed.
End pipe.
