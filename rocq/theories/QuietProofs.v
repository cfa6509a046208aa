(** Events that do not change what a declared pipeline yields. *)
From Verif Require Import JsonModel ObjModel ZSetModel OpsModel ExecModel PipelineModel ValueModel PipeJsonModel StageModel.
From Verif Require Import ZSetSpec OpsSpec GatherSpec ExecSpec JsonSpec CleanSpec PipelineSpec StageSpec.
From Verif Require Import JsonProofs JsonIdent CleanProofs ZSetProofs ZSetProofs2 OpsProofs StreamProofs JoinProofs ChainProofs2 OptProofs IncrProofs IncrProofs2 GatherProofs GatherDet ExecMisc ReconcileProofs ObjProofs ConvertProofs TargetProofs PipeProofs PipeProofs2 PipeProofs3 PipeProofs4 ListProofs StageProofs.

Lemma filter_perm {A} (f : A -> bool) l l' : Permutation l l' -> Permutation (List.filter f l) (List.filter f l').
Proof. induction 1 as [|x l l' H IH|x y l|l1 l2 l3 H1 IH1 H2 IH2]; cbn [List.filter]; [done| | |by etrans]; [destruct (f x); [by apply perm_skip|done]|]. destruct (f x), (f y); try done. apply perm_swap. Qed.
Lemma of_kind_replace {A} (g : jobj -> A) (w : world) x d d' k : w !! x = Some d -> g d = g d' -> Permutation (map g (of_kind k w)) (map g (of_kind k (<[x := d']> w))).
Proof.
  intros Hx E. assert (N : delete x w !! x = None) by apply lookup_delete.
  assert (G : forall m, Permutation (map g (of_kind k (<[x := m]> w))) ((if bool_decide (gvk_kind x.1 = k) then [g m] else []) ++ map g (of_kind k (delete x w)))).
  { intros m. rewrite <-insert_delete_insert. unfold of_kind. etrans; [apply Permutation_map, Permutation_map, filter_perm, (map_to_list_insert _ _ m N)|].
    cbn [List.filter fst]. by destruct (bool_decide (gvk_kind x.1 = k)). }
  rewrite (G d'), <-E, <-(G d), insert_id by done. done.
Qed.

Section quiet.
Context {FF : FloatFmt} {EE : ExprEnv}.
Variable sortv : list json -> list json.
Lemma c51_quiet target sources p pp o ds d p' outs : exact clean -> sources <> [] -> NoDup (map gvk_kind sources) ->
  Forall stage_clean p -> declare clean target sources p = Some pp -> order_ok o -> history_ok clean sources ∅ (ds ++ [d]) ->
  pipe_run clean sortv o 0 pp (ds ++ [d]) = (p', map Some outs) ->
  (forall R R', yields sortv sources p (after ds) R -> yields sortv sources p (after (ds ++ [d])) R' -> Permutation R R') ->
  outs = take (length ds) outs ++ [[]].
Proof.
  intros Hex Hs ND HC HD Ho HH HR HF. unfold declare in HD. destruct (split_join p) as [j rest] eqn:Ej. case_match; [done|].
  destruct (mapM (stage_op clean) rest) as [ps|] eqn:Ep; [|done]. simpl in HD.
  assert (HC' : Forall stage_clean rest).
  { destruct p as [|[kd e] p]; cbn in Ej; [by injection Ej as _ <-|]. destruct kd; injection Ej as <- <-; try done. by apply Forall_cons in HC as [_ ?]. }
  assert (Hok : forallb user_op ps = true /\ Forall op_ok ps).
  { clear -Hex HC' Ep. revert ps Ep. induction rest as [|s rest IH]; intros ps Ep; cbn in Ep; [injection Ep as <-; done|].
    destruct (stage_op clean s) as [q|] eqn:Es; [|done]. cbn in Ep. destruct (mapM (stage_op clean) rest) as [ps'|] eqn:Er; [|done]. cbn in Ep. injection Ep as <-.
    apply Forall_cons in HC' as [Hs HC']. destruct (IH HC' ps' eq_refl) as [H1 H2]. destruct (stage_op_ok clean Hex s q (fun _ => eq_refl) Hs Es) as [H3 H4].
    split; [simpl; by rewrite H3|by constructor]. }
  destruct Hok as [Hu Hok].
  assert (exists g, pipeline_graph (DD := json_docs_on clean) (map gvk_kind sources) (join_ev clean (map gvk_kind sources) <$> j) ps = Some g) as [g Hg].
  { unfold pipe_new in HD. destruct (pipeline_new _ _ _) as [g'|] eqn:Eg; [|done]. unfold pipeline_new, pipeline_inc_graph, build_graph in Eg. unfold pipeline_graph, build_graph.
    destruct (map gvk_kind sources) as [|? [|? ?]], j; cbn in *; try done; by eexists. }
  assert (HY : forall pre post acc B, ds ++ [d] = pre ++ post -> inputs_of clean (after pre) (map gvk_kind sources) acc -> @exec_scratch (json_docs_on clean) sortv g acc B ->
            exists R, rep (DD := json_docs_on clean) B R /\ yields sortv sources p (after pre) R).
  { intros pre post acc B E HI HS. eapply (exec_yields clean sortv Hex); [exact Ej|done|done| |done|exact Hg|exact HI|exact HS].
    intros kd m _ Hm. by eapply prefix_keyed. }
  destruct (pipe_prefixes clean sortv target sources (join_ev clean (map gvk_kind sources) <$> j) ps g pp o (ds ++ [d]) p' outs Hs ND Hu Hok
    (fun jev _ => any_jev_ok clean Hex jev) HD Hg Ho HH HR) as (ys & T & Ly & HP).
  rewrite app_length in Ly, HP. cbn [length] in Ly, HP.
  destruct (HP (length ds)) as (acc1 & B1 & I1 & S1 & T1 & _); [lia|]. destruct (HP (length ds + 1)%nat) as (acc2 & B2 & I2 & S2 & T2 & W2); [lia|].
  rewrite take_app in I1. replace (take (length ds + 1) (ds ++ [d])) with (ds ++ [d]) in I2 by (symmetry; apply take_ge; rewrite app_length; cbn; lia).
  destruct (HY ds [d] _ _ eq_refl I1 S1) as (R1 & (_ & _ & RB1) & Y1), (HY (ds ++ [d]) [] _ _ (eq_sym (app_nil_r _)) I2 S2) as (R2 & (_ & _ & RB2) & Y2).
  pose proof (HF _ _ Y1 Y2) as HPm.
  destruct (lookup_lt_is_Some_2 ys (length ds)) as [y Hy]; [lia|].
  assert (Ey : ys = take (length ds) ys ++ [y]). { rewrite <-(take_drop (length ds) ys) at 1. f_equal. rewrite (drop_S _ _ _ Hy). f_equal. apply drop_ge. lia. }
  replace (length ds + 1)%nat with (S (length ds)) in T2, W2 by lia. rewrite (take_S_r _ _ _ Hy) in T2, W2. apply Forall_app in W2 as [_ W2]. apply Forall_cons in W2 as [Wy _].
  rewrite Ey in T. pose proof (tsteps_zero clean target _ _ _ _ _ T) as E. rewrite take_length_le in E by lia. apply E. apply List.Forall_cons; [|apply List.Forall_nil].
  split; [done|]. intros k. destruct T1 as [_ T1], T2 as [_ T2]. pose proof (T2 k) as X. pose proof (T1 k) as X1. rewrite RB2 in X. rewrite RB1 in X1. rewrite (occ_perm_list (DD := json_docs_on clean) k _ _ HPm) in X1. unfold total in X, X1. rewrite lsum_app in X. simpl in X. rewrite X1 in X. lia.
Qed.
End quiet.
