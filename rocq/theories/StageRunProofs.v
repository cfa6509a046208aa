(** Proofs that pipelines whose stages cannot fail on the documents that reach them run. *)
From Verif Require Import JsonModel ObjModel ZSetModel OpsModel ExecModel PipelineModel ValueModel PipeJsonModel StageModel JsonSpec CleanSpec ZSetSpec OpsSpec ExecSpec PipelineSpec StageSpec TypedSpec StageRunSpec.
From Verif Require Import JsonProofs CleanProofs ZSetProofs ZSetProofs2 OpsProofs StreamProofs JoinProofs ChainProofs2 OptProofs IncrProofs IncrProofs2 ReconcileProofs ObjProofs ConvertProofs TargetProofs PipeProofs PipeProofs2 ListProofs StageProofs DeclProofs TypedProofs.

Section pipe.
Context {FF : FloatFmt}.
Variable P : jobj -> bool.
#[local] Hint Extern 0 Docs => exact (json_docs_on P) : typeclass_instances.
Variable sortv : list json -> list json.
Hypothesis Hsort : forall l, Permutation (sortv l) l.
Hypothesis Hex : exact P.
#[local] Notation xr := (@exec_run (json_docs_on P) sortv).
#[local] Notation xs := (@exec_scratch (json_docs_on P) sortv).

Definition world_on (Qk : string -> jobj -> Prop) (w : world) : Prop := forall x m, w !! x = Some m -> Qk (gvk_kind x.1) m.
Lemma occ_kind Qk w kd (k : string) (d : jobj) : world_on Qk w -> key d = Some k -> occ k (of_kind kd w) <> 0 -> Qk kd d.
Proof.
  intros Hw Hk Ho. apply (occ_in (DD := json_docs_on P)) in Ho as (d' & Hin & Hk'). rewrite (proj1 Hex d d' k Hk Hk'). unfold of_kind in Hin.
  apply in_map_iff in Hin as ([x m] & <- & Hin). apply filter_In in Hin as [Hin Hx]. apply bool_decide_eq_true in Hx. apply elem_of_list_In, elem_of_map_to_list in Hin.
  cbn [snd]. cbn [fst] in Hx. rewrite <-Hx. by apply (Hw x m).
Qed.
Lemma world_on_step Qk sources w d : world_on Qk w -> event_ok P sources w d -> Qk (get_kind (d_obj d)) (stripped (d_obj d)) -> world_on Qk (apply_event w d).
Proof.
  intros Hw E HQ x m. destruct (event_doc P _ _ _ E) as (E1 & _ & _ & _ & _ & _ & _ & E8). unfold apply_event.
  destruct (d_type d); try (rewrite lookup_insert_Some; intros [[<- <-]|[_ Hy]]; [|by apply Hw]; rewrite E1; unfold source_id; cbn [fst]; by rewrite <-E8).
  rewrite lookup_delete_Some. intros [_ Hy]. by apply Hw.
Qed.
Lemma feeds_on_steps Qk sources (ND : NoDup (map gvk_kind sources)) ds : forall w src src' zs,
  world_ok P sources w -> mirrors src w -> world_on Qk w -> history_ok P sources w ds -> events_on Qk ds -> convert_run P src ds = (src', map Some zs) ->
  Forall (feeds_on (DD := json_docs_on P) (map gvk_kind sources) Qk) (zip_with (step_inputs P sources) ds zs).
Proof.
  induction ds as [|d ds IH]; intros w src src' zs Ww M Hw H HE C; [by apply List.Forall_nil|]. destruct H as [E H]. apply Forall_cons in HE as [Hd HE].
  destruct (convert_step P sources src w d Ww M E) as (src1 & z & E1 & Wz & M1 & C1). cbn [convert_run] in C. rewrite E1 in C.
  destruct (convert_run P src1 ds) as [src2 rs] eqn:C2. destruct zs as [|z' zs]; [done|]. injection C as <- <- ->.
  pose proof (world_on_step Qk sources w d Hw E Hd) as Hw'. cbn [zip_with]. apply List.Forall_cons.
  - destruct (event_doc P _ _ _ E) as (_ & _ & Hs & _ & _ & _ & _ & Ek). split.
    + apply feeds_step; [done|done|]. rewrite Ek. apply elem_of_list_In, in_map, elem_of_list_In, Hs.
    + intros nm x Hnm. unfold step_inputs. destruct (decide (get_kind (d_obj d) = nm)) as [En|En].
      * rewrite En, lookup_insert. intros [= <-] k d' Hd'. destruct (doc_count z k d' Wz Hd') as [Hk Hc]. specialize (C1 nm k). rewrite decide_True in C1 by done.
        destruct (decide (occ k (of_kind nm w) = 0)) as [E0|E0]; [|eapply (occ_kind Qk w); [done|exact Hk|done]]. eapply (occ_kind Qk (apply_event w d)); [done|exact Hk|]. lia.
      * rewrite lookup_insert_ne by done. rewrite empty_inputs_lookup. case_decide; [|done]. intros [= <-]. apply zall_empty.
  - eapply (IH (apply_event w d) src1); [by eapply world_step|done..].
Qed.

Lemma c19_on target sources Qk Q Q' join ps g p o ds :
  gvk_ok target -> sources <> [] -> NoDup (map gvk_kind sources) ->
  forallb user_op ps = true -> Forall op_ok ps -> ops_on Q ps Q' ->
  match join with Some jev => jev_ok jev /\ jev_on (map gvk_kind sources) Qk Q jev | None => forall k d, head (map gvk_kind sources) = Some k -> Qk k d -> Q d end ->
  pipe_new P target sources join ps = Some p -> pipeline_graph (map gvk_kind sources) join ps = Some g ->
  order_ok o -> history_ok P sources ∅ ds -> events_on Qk ds ->
  (forall pre post acc B, ds = pre ++ post -> inputs_of P (after pre) (map gvk_kind sources) acc -> xs g acc B -> functional P B) ->
  exists p' outs, pipe_run P sortv o 0 p ds = (p', map Some outs).
Proof.
  intros Hg Hs ND Hu Hok Ht Hj Hp Hgr Ho HH HE HF. set (kinds := map gvk_kind sources) in *.
  unfold pipe_new in Hp. apply bind_Some in Hp as (g1 & Hg1 & [= <-]). fold kinds in Hg1.
  assert (Hk : kinds <> []) by (by destruct sources).
  destruct (convert_history P sources ds HH) as (src & zs & C & Wz & _).
  assert (Lz : length zs = length ds).
  { clear -C. revert C. generalize (∅ : gmap gvk store). revert src zs. induction ds as [|d ds IH]; intros src zs s C; simpl in C.
    - injection C as _ C. by destruct zs.
    - destruct (convert_delta P s d) as [s1 r]. destruct (convert_run P s1 ds) as [s2 rs] eqn:E.
      destruct zs as [|z zs]; [done|]. injection C as _ _ ->. simpl. f_equal. by eapply IH. }
  destruct (@c13_on (json_docs_on P) sortv Hsort (proj1 Hex) kinds Qk Q Q' join ps g1 (sub_exec P o) (zip_with (step_inputs P sources) ds zs)) as (ys & EY); auto using sub_exec_ok.
  { eapply (feeds_on_steps Qk sources ND ds ∅ ∅); [apply world_empty|apply mirrors_empty|intros x m; by rewrite lookup_empty|done|done|exact C]. }
  destruct (xr (sub_exec P o) 0 g1 (zip_with (step_inputs P sources) ds zs)) as [g' rs] eqn:X. simpl in EY. subst rs.
  assert (HP : forall n, (n <= length ds)%nat -> exists acc B, inputs_of P (after (take n ds)) kinds acc
     /\ xs g acc B /\ is_total B (take n ys) /\ Forall zwf (take n ys)).
  { intros n Hn. rewrite <-(take_drop n ds) in HH. apply history_app in HH as [HH1 _].
    destruct (convert_run_ok P sources (take n ds) ∅ ∅ (world_empty P _) mirrors_empty HH1) as (src1 & zs1 & E1 & Wz1 & _ & Ww & F1).
    pose proof C as C'. rewrite <-(take_drop n ds) in C'. destruct (convert_run_prefix P _ _ _ _ _ C') as (src1' & E1').
    rewrite E1 in E1'. injection E1' as _ E1'. rewrite take_length_le in E1' by done. apply (inj (map Some)) in E1'.
    assert (Hzip : zip_with (step_inputs P sources) ds zs = zip_with (step_inputs P sources) (take n ds) (take n zs) ++ zip_with (step_inputs P sources) (drop n ds) (drop n zs)).
    { rewrite <-zip_with_app by (rewrite !take_length; lia). by rewrite !take_drop. }
    pose proof X as X'. rewrite Hzip in X'. destruct (exec_run_prefix P sortv _ _ _ _ _ _ _ X') as (g2 & X1).
    rewrite zip_with_length_l_eq in X1 by (rewrite !take_length; lia). rewrite take_length_le in X1 by done.
    rewrite <-E1' in X1.
    destruct (inputs_exist P kinds (after (take n ds))) as (acc & Hacc).
    { intros kd m _ Hm. unfold of_kind in Hm. apply elem_of_list_In, in_map_iff in Hm as ([x m'] & <- & Hm).
      apply filter_In in Hm as [Hm _]. apply elem_of_list_In, elem_of_map_to_list in Hm.
      destruct (wo_doc _ _ _ Ww _ _ Hm) as (_ & Hc & HPm & _). destruct (clean_key P m' Hc HPm) as [k0 Hk0]. by exists k0. }
    destruct (@c13_core_wf (json_docs_on P) sortv kinds join ps g g1 (sub_exec P o) (zip_with (step_inputs P sources) (take n ds) zs1) (take n ys) g2 acc) as (B & HB & TB & Wy);
      auto using sub_exec_ok.
    { intros jev Hjev. subst join. by apply Hj. }
    { by apply steps_wf. }
    { intros kd Hkd. destruct (Hacc kd Hkd) as (a & Ea & Wa & Ca). exists a. split; [done|]. split; [done|].
      intros k. rewrite (column_fed P sources) by done. rewrite Ca. unfold after. rewrite F1. unfold of_kind. by rewrite map_to_list_empty. }
    exists acc, B. done. }
  assert (Ly : length ys = length ds).
  { apply exec_run_length in X. rewrite map_length, zip_with_length_l_eq in X by done. done. }
  assert (E0 : forall k : string, docs (@zempty (json_docs_on P)) !! k = None) by (intros; apply lookup_empty).
  assert (F0 : functional P zempty). { split; [intros k d Hd|intros k1 k2 d1 d2 i Hd]; by rewrite E0 in Hd. }
  destruct (HP (length ds)) as (_ & _ & _ & _ & _ & Wy); [done|]. rewrite <-Ly, firstn_all in Wy.
  destruct (trun_total P target o Hex Hg Ho ys 0 ∅ zempty) as (tgt' & outs & T); auto using wf_empty.
  { intros n Hn. destruct (HP n) as (accn & Bn & Han & HBn & TBn & _); [lia|]. exists Bn. split_and!; [apply TBn| |].
    + eapply (HF (take n ds) (drop n ds)); [by rewrite take_drop|done|done].
    + intros k. rewrite zcount_empty. apply TBn. }
  eexists _, outs. by eapply (pipe_run_intro P sortv o ds 0 (Pipe P sources target g1 ∅ ∅ None)); eauto.
Qed.
End pipe.

Section declared.
Context {FF : FloatFmt} {EE : ExprEnv}.
Hypothesis Hex : exact clean.
Variable sortv : list json -> list json.
Hypothesis Hsort : forall l, Permutation (sortv l) l.
#[local] Hint Extern 0 Docs => exact (json_docs_on clean) : typeclass_instances.
Local Notation fineQ := (fine (DD := json_docs_on clean)).

Lemma fine_doc Q (d : jobj) : fineQ Q d <-> a_doc Q d.
Proof.
  split; intros [H1 H2]; (split; [|done]); [by apply key_clean|]. destruct (clean_key clean d H1 H1) as [k Hk]. by exists k.
Qed.
Lemma unwound_ev_is e d l : unwound e d l -> (exists v, get_raw name_path (JMap d) = Val v) -> unwind_ev (DD := json_docs_on clean) (unwind_extract clean e) (unwind_transform clean e) d = Some l.
Proof.
  intros (path & vs & Hp & Ev & Len & Hl) [v0 Ev0]. unfold unwind_ev, unwind_extract. rewrite Ev0.
  assert (X : exists v, eval_doc e d = Some v /\ (if is_null v then Some [] else as_list v) = Some vs). { destruct Ev as [Ev|[Ev ->]]; [by exists (JList vs)|by exists JNull]. }
  destruct X as (v & -> & X). cbn [mbind option_bind]. rewrite X. cbn [mbind option_bind]. apply mapM_Some_2. apply Forall2_same_length_lookup_2; [by rewrite list_elems_length|].
  intros i x d2 Hx Hd2.
  assert (Hi : (i < length vs)%nat) by (apply lookup_lt_Some in Hx; by rewrite list_elems_length in Hx). destruct (lookup_lt_is_Some_2 vs i Hi) as [v1 Hv1].
  assert (Hy := eq_trans (eq_sym (list_elems_lookup vs 0%Z i v1 Hv1)) Hx). injection Hy as <-. destruct (Hl i v1 d2 Hv1 Hd2) as (d1 & name & H1 & H2 & H3). unfold unwind_transform, list_elem. rewrite Hp. cbn [mbind option_bind]. refine (eq_trans (f_equal (fun z => z ≫= _) H1) _). cbn [mbind option_bind]. by rewrite H2.
Qed.
Lemma stage_on_op Q Q' s q : stage_on Q Q' s -> stage_op clean s = Some q -> op_on (DD := json_docs_on clean) Q Q' q.
Proof.
  destruct s as [kd e]. unfold stage_on, stage_op. cbn [st_kind st_expr]. intros H Hq. destruct kd; try done.
  - injection Hq as <-. intros d Hd. apply fine_doc in Hd. destruct (H d Hd) as (b & Eb & HQ). exists (if b then [d] else []). split; [unfold select_ev; rewrite Eb; by destruct b|].
    destruct b; [|apply List.Forall_nil]. apply List.Forall_cons; [|apply List.Forall_nil]. apply fine_doc. split; [by apply Hd|by apply HQ].
  - injection Hq as <-. intros d Hd. apply fine_doc in Hd. destruct (H d Hd) as (d' & Ed & Hd'). exists d'. split; [by apply projected_ev|by apply fine_doc].
  - destruct (literal_string e) as [path|] eqn:El; [|done]. injection Hq as <-. intros d Hd. apply fine_doc in Hd. destruct (H d Hd) as (Hn & l & Hl & HF). exists l. split; [by apply unwound_ev_is|].
    eapply Forall_impl; [exact HF|]. intros x. by apply fine_doc.
  - destruct H as (k & v & He & H1 & H2). rewrite He in Hq. injection Hq as <-. split.
    + intros d Hd. apply fine_doc in Hd. destruct (H1 d Hd) as (x & y & Ex & Ey & Hx). unfold gather_extract. rewrite Ex, Ey. cbn. eexists _, _. split_and!; [done|done|].
      intros z. destruct (is_null x) eqn:En; [done|]. intros [= <-]. by apply Hx.
    + intros d g vs Hd Hg HF. apply fine_doc in Hd. destruct (H2 d vs Hd) as (path & r & Hp & Hr & Hd').
      { eapply Forall_impl; [exact HF|]. intros y (d' & Hd' & Ey). exists d'. split; [exact (proj1 (fine_doc Q d') Hd')|]. by apply gather_extract_inv in Ey as [? _]. }
      exists r. split; [|by apply fine_doc]. unfold gather_transform. rewrite Hp. cbn. exact Hr.
Qed.
Lemma stages_on_ops p : forall Q Q' ps, stages_on Q p Q' -> mapM (stage_op clean) p = Some ps -> ops_on (DD := json_docs_on clean) Q ps Q'.
Proof.
  induction p as [|s p IH]; intros Q Q' ps H Hp; cbn in Hp; [injection Hp as <-; exact H|]. destruct (stage_op clean s) as [q|] eqn:Es; [|done]. cbn in Hp.
  destruct (mapM (stage_op clean) p) as [ps'|] eqn:Er; [|done]. cbn in Hp. injection Hp as <-. destruct H as (Qm & H1 & H2). exists Qm. split; [by eapply stage_on_op|by eapply IH].
Qed.
Lemma c51_runs target sources p pp o ds Qk Q' : gvk_ok target -> sources <> [] -> NoDup (map gvk_kind sources) -> Forall (fun s => utf8_ok (gvk_kind s) = true) sources ->
  Forall stage_clean p -> declare clean target sources p = Some pp -> order_ok o -> history_ok clean sources ∅ ds -> events_on Qk ds -> runs_on sources Qk p Q' ->
  (forall pre post R, ds = pre ++ post -> yields sortv sources p (after pre) R -> one_per_name R) ->
  exists p' outs, pipe_run clean sortv o 0 pp ds = (p', map Some outs).
Proof.
  intros Ht Hs ND HU HC HD Ho HH HE HR HF. unfold declare in HD. destruct (split_join p) as [j rest] eqn:Ej. case_match; [done|].
  destruct (mapM (stage_op clean) rest) as [ps|] eqn:Ep; [|done]. simpl in HD.
  assert (HC' : Forall stage_clean rest).
  { destruct p as [|[kd e] p]; cbn in Ej; [by injection Ej as _ <-|]. destruct kd; injection Ej as <- <-; try done. by apply Forall_cons in HC as [_ ?]. }
  assert (Hok : forallb user_op ps = true /\ Forall op_ok ps).
  { clear -Hex HC' Ep. revert ps Ep. induction rest as [|s rest IH]; intros ps Ep; cbn in Ep; [injection Ep as <-; done|].
    destruct (stage_op clean s) as [q|] eqn:Es; [|done]. cbn in Ep. destruct (mapM (stage_op clean) rest) as [ps'|] eqn:Er; [|done]. cbn in Ep. injection Ep as <-.
    apply Forall_cons in HC' as [Hs HC']. destruct (IH HC' ps' eq_refl) as [H1 H2]. destruct (stage_op_ok clean Hex s q (fun _ => eq_refl) Hs Es) as [H3 H4].
    split; [simpl; by rewrite H3|by constructor]. }
  destruct Hok as [Hu Hok].
  assert (exists g, pipeline_graph (DD := json_docs_on clean) (map gvk_kind sources) (join_ev clean (map gvk_kind sources) <$> j) ps = Some g) as [g Hg].
  { unfold pipe_new in HD. destruct (pipeline_new _ _ _) as [g'|] eqn:Eg; [|done]. unfold pipeline_new, pipeline_inc_graph, build_graph in Eg. unfold pipeline_graph, build_graph.
    destruct (map gvk_kind sources) as [|? [|? ?]], j; cbn in *; try done; by eexists. }
  assert (HY : forall pre post acc B, ds = pre ++ post -> inputs_of clean (after pre) (map gvk_kind sources) acc -> @exec_scratch (json_docs_on clean) sortv g acc B -> functional clean B).
  { intros pre post acc B E HI HS. destruct (exec_yields clean sortv Hex sources p j rest ps g (after pre) acc B) as (R & RB & HR'); try done.
    - intros kd m _ Hm. by eapply prefix_keyed.
    - eapply (rep_functional clean Hex); [exact RB|]. by eapply HF. }
  assert (X : exists Q, ops_on (DD := json_docs_on clean) Q ps Q' /\
    match join_ev clean (map gvk_kind sources) <$> j with Some jev => jev_ok (DD := json_docs_on clean) jev /\ jev_on (DD := json_docs_on clean) (map gvk_kind sources) Qk Q jev | None => forall k d, head (map gvk_kind sources) = Some k -> Qk k d -> Q d end).
  { assert (N : (exists s, sources = [s] /\ stages_on (Qk (gvk_kind s)) p Q') -> j = None -> rest = p -> exists Q, ops_on (DD := json_docs_on clean) Q ps Q' /\
      match join_ev clean (map gvk_kind sources) <$> j with Some jev => jev_ok (DD := json_docs_on clean) jev /\ jev_on (DD := json_docs_on clean) (map gvk_kind sources) Qk Q jev | None => forall k d, head (map gvk_kind sources) = Some k -> Qk k d -> Q d end).
    { intros (s & -> & Hr) -> ->. exists (Qk (gvk_kind s)). split; [by eapply stages_on_ops|]. cbn. by intros k d [= <-]. }
    destruct p as [|[kd e] p]; cbn in Ej; [injection Ej as <- <-; by apply N|]. destruct kd; injection Ej as <- <-; try (by apply N). clear N.
    destruct HR as (Q & HJ & HR). exists Q. split; [by eapply stages_on_ops|]. cbn. split; [by apply any_jev_ok|].
    intros t HT. assert (F1 : Forall2 (fun s d => a_doc (Qk (gvk_kind s)) d) sources t).
    { clear -HT. remember (map gvk_kind sources) as kinds eqn:Ek. revert sources Ek. induction HT as [|k d kinds t Hd _ IH]; intros [|s sources] [=]; [constructor|]. subst k.
      constructor; [exact (proj1 (fine_doc _ _) Hd)|by apply IH]. }
    destruct (HJ t F1) as (b & Eb & HQ). unfold join_ev, select_ev. rewrite join_doc_any. fold (combination (map gvk_kind sources) t). rewrite Eb. cbn. eexists. split; [done|].
    destruct b; [|apply List.Forall_nil]. apply List.Forall_cons; [|apply List.Forall_nil]. apply fine_doc. split; [|by apply HQ].
    apply combination_clean; [by apply Forall_fmap| |done]. clear -F1. induction F1 as [|s d sources t [Hd _] _ IH]; [apply List.Forall_nil|by apply List.Forall_cons]. }
  destruct X as (Q & HQ & HJ).
  exact (c19_on clean sortv Hsort Hex target sources Qk Q Q' (join_ev clean (map gvk_kind sources) <$> j) ps g pp o ds Ht Hs ND Hu Hok HQ HJ HD Hg Ho HH HE HY).
Qed.
End declared.
