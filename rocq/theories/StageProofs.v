(** Declared pipelines: from the executor's Z-sets to the meaning of the stages. *)
From Verif Require Import JsonModel ObjModel ZSetModel OpsModel ExecModel PipelineModel ValueModel PipeJsonModel StageModel.
From Verif Require Import ZSetSpec OpsSpec GatherSpec ExecSpec JsonSpec CleanSpec PipelineSpec StageSpec.
From Verif Require Import JsonProofs JsonIdent CleanProofs ZSetProofs ZSetProofs2 OpsProofs StreamProofs JoinProofs ChainProofs2 OptProofs IncrProofs IncrProofs2 GatherProofs GatherDet ExecMisc ReconcileProofs ObjProofs ConvertProofs TargetProofs PipeProofs PipeProofs2 PipeProofs3 ListProofs.

Section stages.
Context {FF : FloatFmt} {EE : ExprEnv}.
Variable P : jobj -> bool.
#[local] Hint Extern 0 Docs => exact (json_docs_on P) : typeclass_instances.
Variable sortv : list json -> list json.
Hypothesis Hex : exact P.
#[local] Notation rep := (@rep (json_docs_on P)).

Lemma kinj : forall (a b : @doc (json_docs_on P)) k, key a = Some k -> key b = Some k -> a = b.
Proof. exact (proj1 Hex). Qed.
Lemma any_ev_ok (ev : @evaluator (json_docs_on P)) : ev_ok ev.
Proof. intros d1 d2 k H1 H2. rewrite (kinj d1 d2 k H1 H2). by destruct (ev d2). Qed.
Lemma any_jev_ok (jev : @join_evaluator (json_docs_on P)) : jev_ok jev.
Proof.
  intros t1 t2 H. assert (t1 = t2) as ->; [|by destruct (jev t2)].
  induction H as [|d1 d2 t1 t2 (k & H1 & H2) F IH]; [done|]. by rewrite (kinj d1 d2 k H1 H2), IH.
Qed.

Lemma select_inv e d l : select_ev P e d = Some l -> exists b, eval_doc e d = Some (JBool b) /\ l = if b then [d] else [].
Proof.
  unfold select_ev. destruct (eval_doc e d) as [v|]; [|done]. simpl. destruct v as [|b| | | | |]; simpl; try done. intros [= <-]. by exists b.
Qed.
Lemma collect_maps l us : collect as_object l = Some us -> l = map JMap us.
Proof.
  revert us. induction l as [|v l IH]; simpl; intros us H; [by injection H as <-|].
  destruct v; simpl in H; try done. destruct (collect as_object l) as [us'|]; [|done]. simpl in H. injection H as <-. simpl. by rewrite (IH us' eq_refl).
Qed.
Lemma project_inv e d l : project_ev P e d = Some l -> exists d', l = [d'] /\ projected e d d'.
Proof.
  unfold project_ev, projected. destruct (eval_doc e d) as [v|]; [|done]. simpl.
  destruct (as_objects v) as [us|] eqn:E; [|done]. simpl. destruct (merge_objects JNull us) as [r|] eqn:M; [|done]. simpl.
  destruct r as [| | | | | |d']; simpl; try done. intros [= <-]. exists d'. split; [done|].
  unfold as_objects in E. destruct v as [| | | | |l|m]; simpl in E; try done.
  - right. exists us. split; [|done]. by rewrite (collect_maps l us E).
  - left. injection E as <-. simpl in M. by injection M as ->.
Qed.
Lemma list_elems_length l : forall i, length (list_elems i l) = length l.
Proof. induction l as [|v l IH]; intros i; simpl; [done|]. by rewrite IH. Qed.
Lemma list_elems_lookup l : forall i n v, l !! n = Some v -> list_elems i l !! n = Some (list_elem (i + Z.of_nat n) v).
Proof.
  induction l as [|x l IH]; intros i n v H; [done|]. destruct n as [|n]; simpl in *.
  - injection H as ->. by rewrite Z.add_0_r.
  - rewrite (IH (i + 1) n v H). do 2 f_equal. lia.
Qed.
Lemma unwind_inv e d l : is_Some (literal_string e) -> unwind_ev (unwind_extract P e) (unwind_transform P e) d = Some l -> unwound e d l.
Proof.
  intros [path Hp]. unfold unwind_ev, unwind_extract, unwound. destruct (get_raw name_path (JMap d)) as [n0| |]; simpl; try done.
  destruct (eval_doc e d) as [v|]; [|done]. simpl. destruct (if is_null v then Some [] else as_list v) as [vs|] eqn:E; [|done]. simpl.
  intros H. exists path, vs. split; [done|]. split.
  { destruct v; simpl in E; try done; [right; by injection E as <-|left; by injection E as ->]. }
  apply mapM_Some_1 in H. split; [by rewrite <-(Forall2_length _ _ _ H), list_elems_length|].
  intros i v' d' Hv Hd. pose proof (list_elems_lookup vs 0 i v' Hv) as Hl. destruct (Forall2_lookup_l _ _ _ _ _ H Hl) as (d2 & Hd2 & Ht).
  rewrite Hd in Hd2. injection Hd2 as <-. unfold unwind_transform, list_elem in Ht. rewrite Hp in Ht. simpl in Ht.
  destruct (set_raw path v' d) as [d1|] eqn:E1; [|done]. simpl in Ht. destruct (get_raw name_path (JMap d1)) as [nm| |] eqn:E2; try done.
  by exists d1, nm.
Qed.
Lemma gather_extract_inv e d v : gather_extract P e d = Some (Some v) <-> eval_doc e d = Some v /\ is_null v = false.
Proof.
  unfold gather_extract. destruct (eval_doc e d) as [w|]; simpl; [|split; [done|by intros [? ?]]].
  destruct (is_null w) eqn:E; split; try done; [intros [[= <-] H]; congruence|intros [= <-]; done|by intros [[= <-] _]].
Qed.
Lemma gather_key_group k v d : group_of (DD := json_docs_on P) (gather_extract P k) (gather_extract P v) d = gather_key k v d.
Proof.
  unfold group_of, gather_key, gather_extract. destruct (eval_doc k d) as [kv|]; [|done]. simpl.
  destruct (is_null kv); simpl; destruct (eval_doc v d) as [vv|]; simpl; try done. by destruct (is_null vv).
Qed.
Lemma gather_values_group k v j l : lgroup (DD := json_docs_on P) (gather_extract P k) (gather_extract P v) j l = gather_values k v j l.
Proof.
  unfold lgroup, gather_values. induction l as [|d l IH]; [done|]. cbn [flat_map]. f_equal; [|exact IH]. rewrite gather_key_group.
  assert (DE : gather_key k v d = Some j \/ gather_key k v d <> Some j) by (destruct (decide (gather_key k v d = Some j)); auto).
  destruct DE as [E|E].
  - unfold gather_key, gather_extract in *. destruct (eval_doc k d) as [kv|]; [|done].
    destruct (eval_doc v d) as [vv|]; simpl; [|done]. destruct (is_null vv); [by rewrite orb_true_r in E|]. by case_decide.
  - do 2 (match goal with |- context [decide ?Q] => destruct (decide Q) as [H|_]; [destruct (E H)|] end). done.
Qed.

(** The operators of the stages are as the theorems on pipelines demand. *)
Lemma stage_op_ok s p : (forall d, P d = clean d) -> stage_clean s -> stage_op P s = Some p -> user_op p = true /\ op_ok p.
Proof.
  intros HP HC. unfold stage_op, stage_clean in *. destruct s as [kd e]; cbn [st_kind st_expr] in *. 
  assert (HK : forall d, is_Some (@key (json_docs_on P) d) -> clean d = true) by (intros d [k Hk]; simpl in Hk; rewrite HP in Hk; by destruct (clean d)).
  assert (HK' : forall d, clean d = true -> is_Some (@key (json_docs_on P) d)) by (intros d Hd; destruct (clean_key P d Hd) as [k Hk]; [by rewrite HP|by exists k]).
  destruct kd; try done.
  - intros [= <-]. split; [done|]. split; [apply any_ev_ok|]. intros d l d' Hd H Hin. apply select_inv in H as (b & _ & ->).
    destruct b; [|done]. by destruct Hin as [<-|[]].
  - intros [= <-]. split; [done|]. split; [apply any_ev_ok|]. split.
    + intros d l d' Hd H Hin. apply project_inv in H as (d2 & -> & Hp). destruct Hin as [<-|[]]. apply HK'. eapply HC; [|exact Hp]. by apply HK.
    + intros d l H. by apply project_inv in H as (d2 & -> & _).
  - destruct (literal_string e) as [path|] eqn:El; [|done]. intros [= <-]. split; [done|]. split; [apply any_ev_ok|].
    intros d l d' Hd H Hin. apply HK'. eapply HC; [|eapply unwind_inv; [by exists path|exact H]|done]. by apply HK.
  - destruct (exp_list _ e) as [[|k [|v [|? ?]]]|]; try done. intros [= <-]. done.
Qed.

(** One stage. *)
Lemma Forall2_impl_in {A B} (R Q : A -> B -> Prop) l l' : (forall a b, In a l -> R a b -> Q a b) -> Forall2 R l l' -> Forall2 Q l l'.
Proof. intros H F. induction F; constructor; [apply H; [by left|done]|apply IHF; intros; apply H; [by right|done]]. Qed.
Lemma selects_concat e l ls : Forall2 (fun d l' => select_ev P e d = Some l') l ls -> selects e l (concat ls).
Proof.
  induction 1 as [|d l' l ls H F [IH1 IH2]]; [split; [by intros ? []|done]|]. apply select_inv in H as (b & Hb & ->). split.
  - intros d' [<-|Hd']; [by exists b|by apply IH1].
  - cbn [concat List.filter]. rewrite IH2. unfold holds at 2. rewrite Hb. by destruct b.
Qed.
Lemma stage_step s p o a l c : stage_op P s = Some p -> order_ok o -> rep a l -> snd (process sortv o p a) = Some c ->
  exists l', rep c l' /\ stage_means sortv s l l'.
Proof.
  intros Hs Ho R E. unfold stage_op, stage_means in *. destruct s as [kd e]; cbn [st_kind st_expr] in *. destruct kd; try done.
  - injection Hs as <-. cbn in E. destruct (rep_linear kinj _ _ _ _ _ _ (select_linear (select_ev P e)) Ho R E) as (ls & F & Rc).
    exists (concat ls). split; [done|]. by apply selects_concat.
  - injection Hs as <-. cbn in E. destruct (rep_linear kinj _ _ _ _ _ _ (project_linear (project_ev P e)) Ho R E) as (ls & F & Rc).
    exists (concat ls). split; [done|]. clear -F. unfold projects. induction F as [|d l' l ls H F IH]; [constructor|].
    apply project_inv in H as (d' & -> & Hp). cbn. by constructor.
  - destruct (literal_string e) as [path|] eqn:El; [|done]. injection Hs as <-. cbn in E.
    destruct (rep_linear kinj _ _ _ _ _ _ (unwind_linear (unwind_extract P e) (unwind_transform P e)) Ho R E) as (ls & F & Rc).
    exists (concat ls). split; [done|]. exists ls. split; [|done]. eapply Forall2_impl; [exact F|]. intros d l' H. eapply unwind_inv; [by exists path|done].
  - destruct (exp_list _ e) as [[|k [|v [|? ?]]]|] eqn:El; try done. injection Hs as <-. cbn in E.
    destruct (rep_gather kinj sortv o _ _ _ a l c Ho R E) as (outs & Rc & H1 & H2 & H3).
    exists (map snd outs). split; [done|]. exists k, v. split; [done|]. exists outs. split_and!; [done|done| |].
    + intros j. rewrite H2. split; intros (d & Hd & Hg); exists d; split; try done; [by rewrite gather_key_group in Hg|by rewrite gather_key_group].
    + intros j r Hr. destruct (H3 j r Hr) as (d & gk & vs & Hd & Hg & _ & Hp & Ha). unfold gather_transform in Ha.
      destruct (literal_string v) as [path|] eqn:Ep; [|done]. simpl in Ha. rewrite gather_key_group in Hg. rewrite gather_values_group in Hp.
      by exists path, d, vs.
Qed.
Lemma stages_scratch p : forall ps a l c, mapM (stage_op P) p = Some ps -> rep a l -> scratch sortv ps a c ->
  exists R, rep c R /\ stages_mean sortv p l R.
Proof.
  induction p as [|s p IH]; intros ps a l c Hp Ra HS; simpl in Hp.
  - injection Hp as <-. inversion HS; subst. exists l. split; [by eapply rep_zeq|by constructor].
  - destruct (stage_op P s) as [q|] eqn:Es; [|done]. simpl in Hp. destruct (mapM (stage_op P) p) as [ps'|] eqn:Ep; [|done]. simpl in Hp. injection Hp as <-.
    inversion HS as [|o ? ? ? a' b ? Ho Wa' Ea Hb HS' E1 E2]; subst.
    destruct (stage_step s q o a' l b Es Ho) as (l' & Rb & Hm); [by eapply rep_zeq|done|].
    destruct (IH ps' b l' c eq_refl Rb HS') as (R & Rc & HR). exists R. split; [done|]. by eapply means_cons.
Qed.

(** The whole pipeline. *)
Lemma join_doc_combination names : forall ds acc, length names = length ds -> join_doc acc names ds = foldl (fun m e => mset m e.1 (JMap e.2)) acc (combine names ds).
Proof. induction names as [|n names IH]; intros [|d ds] acc H; try done. simpl. apply IH. by injection H. Qed.
Lemma picks_length {A} (ls : list (list A)) t : In t (picks ls) -> length t = length ls.
Proof.
  revert t. induction ls as [|l ls IH]; simpl; intros t; [by intros [<-|[]]|]. rewrite in_flat_map. intros (d & _ & H).
  apply in_map_iff in H as (t' & <- & H). simpl. by rewrite (IH t' H).
Qed.
Lemma exec_yields sources p j rest ps g w acc B : split_join p = (j, rest) -> sources <> [] -> NoDup (map gvk_kind sources) ->
  (forall kd (m : jobj), kd ∈ map gvk_kind sources -> m ∈ of_kind kd w -> is_Some (@key (json_docs_on P) m)) ->
  mapM (stage_op P) rest = Some ps -> pipeline_graph (map gvk_kind sources) (join_ev P (map gvk_kind sources) <$> j) ps = Some g ->
  inputs_of P w (map gvk_kind sources) acc -> exec_scratch sortv g acc B ->
  exists R, rep B R /\ yields sortv sources p w R.
Proof.
  intros Hj Hs ND HK Hp Hg HI (zs & J & Em & HJ & HS). 
  assert (Hone : j = None -> exists s, sources = [s]).
  { intros ->. destruct sources as [|s [|s' sources]]; [done|by exists s|done]. }
  pose proof (pipeline_graph_eq _ _ _ _ Hg) as ->. cbn [g_inputs g_join g_chain] in *.
  unfold input_names in *. rewrite add_inputs_nodup in Em by done.
  assert (E0 : map cn_op (user_chain ps) = ps) by (unfold user_chain; by rewrite map_map, map_id). rewrite E0 in HS.
  assert (F : Forall2 rep zs (map (fun kd => of_kind kd w) (map gvk_kind sources))).
  { clear -HI HK Em. revert zs Em. induction (map gvk_kind sources) as [|kd kinds IH]; intros zs Em; simpl in Em; [injection Em as <-; constructor|].
    destruct (HI kd) as (a & Ea & Wa & Ca); [by left|]. rewrite Ea in Em. simpl in Em. destruct (mapM _ kinds) as [zs'|]; [|done]. simpl in Em. injection Em as <-.
    constructor; [|apply IH; [intros; eapply HK; [by right|done]|intros kd' H; apply HI; by right|done]].
    split_and!; [done| |done]. apply Forall_forall. intros m Hm. eapply HK; [by left|done]. }
  rewrite map_map in F.
  destruct j as [e|]; cbn [fmap option_fmap option_map] in HJ.
  - destruct p as [|[kd e'] p]; [done|]. cbn in Hj. destruct kd; try done. injection Hj as -> ->.
    destruct HJ as (o & Ho & HJ). destruct (rep_join kinj _ _ _ _ _ _ Ho F HJ) as (outs & FO & RJ).
    destruct (stages_scratch rest ps J _ B Hp RJ HS) as (R & RB & HR). exists R. split; [done|]. unfold yields. exists (concat outs). split; [|done].
    set (ts := picks _) in *. assert (Hl : forall t, In t ts -> length t = length (map gvk_kind sources)).
    { intros t Ht. apply picks_length in Ht. by rewrite !map_length in *. }
    apply selects_concat. clear -FO Hl. clearbody ts. induction FO as [|t l' ts outs H FO IH]; [constructor|]. cbn [map]. constructor.
    + unfold join_ev in H. rewrite join_doc_combination in H by (symmetry; apply Hl; by left). exact H.
    + apply IH. intros; apply Hl; by right.
  - destruct (Hone eq_refl) as [s ->]. destruct zs as [|z zs]; [done|]. simpl in HJ. injection HJ as <-.
    inversion F as [|? ? ? ? Rz F']; subst. destruct (stages_scratch rest ps z _ B Hp Rz HS) as (R & RB & HR). exists R. split; [done|].
    destruct p as [|[kd e'] p]; cbn in Hj.
    + injection Hj as <-. by exists s.
    + destruct kd; injection Hj; try done; intros <-; by exists s.
Qed.

(** Results. *)
Lemma rep_functional B R : rep B R -> one_per_name R -> functional P B.
Proof.
  intros HR [ND HN]. pose proof HR as (W & K & C). split.
  - intros k d Hd. assert (In d R) as Hin by (apply (rep_in kinj B R d HR); by exists k). split; [|by apply HN].
    destruct (zwf_doc P _ _ _ W Hd) as [Hk _]. rewrite C. apply elem_of_list_In, elem_of_Permutation in Hin as [R' Hp].
    rewrite (occ_perm_list k _ _ Hp), (occ_cons_j P). case_decide as Hk2; [|done].
    assert (occ (DD := json_docs_on P) k R' = 0) as H0; [|by rewrite H0].
    destruct (decide (occ (DD := json_docs_on P) k R' = 0)) as [|Hn]; [done|]. destruct (ChainProofs.occ_nz_in (DD := json_docs_on P) _ _ Hn) as (d' & Hd' & Hk').
    assert (d' = d) as -> by exact (kinj d' d k Hk' Hk). exfalso. assert (NoDup (map doc_id (d :: R'))) as HD by by rewrite <-Hp.
    cbn [map] in HD. apply NoDup_cons in HD as [HD _]. apply HD. apply elem_of_list_In, in_map_iff. by exists d.
  - intros k1 k2 d1 d2 i H1 H2 N1 N2. assert (In d1 R) as I1 by (apply (rep_in kinj B R d1 HR); by exists k1).
    assert (In d2 R) as I2 by (apply (rep_in kinj B R d2 HR); by exists k2).
    assert (d1 = d2) as ->.
    { clear -ND N1 N2 I1 I2. induction R as [|d R IH]; [done|]. cbn [map] in ND. apply NoDup_cons in ND as [Hn ND].
      destruct I1 as [->|I1], I2 as [->|I2]; try done; [| |by apply IH]; exfalso; apply Hn; apply elem_of_list_In, in_map_iff; [exists d2|exists d1]; split; congruence. }
    destruct (zwf_doc P _ _ _ W H1) as [K1 _], (zwf_doc P _ _ _ W H2) as [K2 _]. rewrite K1 in K2. by injection K2.
Qed.
End stages.

Section declared.
Context {FF : FloatFmt} {EE : ExprEnv}.
Variable sortv : list json -> list json.

Lemma prefix_keyed sources ds pre post kd (m : jobj) : history_ok clean sources ∅ ds -> ds = pre ++ post -> m ∈ of_kind kd (after pre) ->
  is_Some (@key (json_docs_on clean) m).
Proof.
  intros HH -> Hm. apply history_app in HH as [HH _].
  destruct (convert_run_ok clean sources pre ∅ ∅ (world_empty clean _) mirrors_empty HH) as (src1 & zs1 & _ & _ & _ & Ww & _).
  unfold of_kind in Hm. apply elem_of_list_In, in_map_iff in Hm as ([x m'] & <- & Hm). apply filter_In in Hm as [Hm _].
  apply elem_of_list_In, elem_of_map_to_list in Hm. destruct (wo_doc _ _ _ Ww _ _ Hm) as (_ & C & _). destruct (clean_key clean m' C C) as [k Hk]. by exists k.
Qed.
Lemma c51_core target sources p pp o ds p' outs : exact clean -> gvk_ok target -> sources <> [] -> NoDup (map gvk_kind sources) ->
  Forall stage_clean p -> declare clean target sources p = Some pp -> order_ok o -> history_ok clean sources ∅ ds ->
  pipe_run clean sortv o 0 pp ds = (p', map Some outs) ->
  (forall pre post R, ds = pre ++ post -> yields sortv sources p (after pre) R -> one_per_name R) ->
  exists R, yields sortv sources p (after ds) R
    /\ forall i m, apply_ops no_objects (concat outs) i = Some m <-> exists d, In d R /\ doc_id d = Some i /\ m = encapsulate target d i.1 i.2.
Proof.
  intros Hex Ht Hs ND HC HD Ho HH HR HF. unfold declare in HD. destruct (split_join p) as [j rest] eqn:Ej. case_match; [done|].
  destruct (mapM (stage_op clean) rest) as [ps|] eqn:Ep; [|done]. simpl in HD.
  assert (HC' : Forall stage_clean rest).
  { destruct p as [|[kd e] p]; cbn in Ej; [by injection Ej as _ <-|]. destruct kd; injection Ej as <- <-; try done. by apply Forall_cons in HC as [_ ?]. }
  assert (Hok : forallb user_op ps = true /\ Forall op_ok ps).
  { clear -Hex HC' Ep. revert ps Ep. induction rest as [|s rest IH]; intros ps Ep; cbn in Ep; [injection Ep as <-; done|].
    destruct (stage_op clean s) as [q|] eqn:Es; [|done]. cbn in Ep. destruct (mapM (stage_op clean) rest) as [ps'|] eqn:Er; [|done]. cbn in Ep. injection Ep as <-.
    apply Forall_cons in HC' as [Hs HC']. destruct (IH HC' ps' eq_refl) as [H1 H2]. destruct (stage_op_ok clean Hex s q (fun _ => eq_refl) Hs Es) as [H3 H4].
    split; [simpl; by rewrite H3|by constructor]. }
  destruct Hok as [Hu Hok].
  assert (exists g, pipeline_graph (DD := json_docs_on clean) (map gvk_kind sources) (join_ev clean (map gvk_kind sources) <$> j) ps = Some g) as [g Hg].
  { unfold pipe_new in HD. destruct (pipeline_new _ _ _) as [g'|] eqn:Eg; [|done]. unfold pipeline_new, pipeline_inc_graph, build_graph in Eg. unfold pipeline_graph, build_graph.
    destruct (map gvk_kind sources) as [|? [|? ?]], j; cbn in *; try done; by eexists. }
  assert (HY : forall pre post acc B, ds = pre ++ post -> inputs_of clean (after pre) (map gvk_kind sources) acc -> @exec_scratch (json_docs_on clean) sortv g acc B ->
            exists R, rep (DD := json_docs_on clean) B R /\ yields sortv sources p (after pre) R).
  { intros pre post acc B E HI HS. eapply (exec_yields clean sortv Hex); [exact Ej|done|done| |done|exact Hg|exact HI|exact HS].
    intros kd m _ Hm. by eapply prefix_keyed. }
  destruct (c19_core clean sortv target sources (join_ev clean (map gvk_kind sources) <$> j) ps g pp o ds p' outs Hex Ht Hs ND Hu Hok
    (fun jev _ => any_jev_ok clean Hex jev) HD Hg Ho HH HR) as (acc & B & HI & HS & Hsh & _).
  { intros pre post acc B E HI HS. destruct (HY pre post acc B E HI HS) as (R & RB & HR'). eapply (rep_functional clean Hex); [exact RB|]. by eapply HF. }
  destruct (HY ds [] acc B (eq_sym (app_nil_r ds)) HI HS) as (R & RB & HR'). exists R. split; [done|].
  intros i m. rewrite (Hsh i m). split.
  - intros (k & d & Hd & Hi & Hm). exists d. split; [|done]. apply (rep_in (DD := json_docs_on clean) (kinj clean Hex) B R d RB). by exists k.
  - intros (d & Hd & Hi & Hm). apply (rep_in (DD := json_docs_on clean) (kinj clean Hex) B R d RB) in Hd as [k Hk]. by exists k, d.
Qed.
End declared.
