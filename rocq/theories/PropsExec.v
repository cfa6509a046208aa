(** Properties C10-C16: gather, rewriting, incremental execution, failures,
    reset and snapshot conversion.

    [exec_run o 0 g ins] evaluates the stream [ins] of named input deltas on the
    executor [g], one after the other, going on after errors; its second
    component is the list of results.  [pipeline_graph kinds join ps] is the
    graph of a pipeline as the user wrote it (sources [kinds], optional @join,
    stages [ps]); [pipeline_new] is the optimised incremental graph that New
    builds. *)
From Verif Require Import ZSetModel OpsModel ExecModel ZSetSpec ZSetProofs ZSetProofs2 OpsSpec OpsProofs GatherSpec ExecSpec StreamProofs JoinProofs ChainProofs ChainProofs2 OptProofs IncrProofs IncrProofs2 ExecMisc GatherProofs GatherDet FusedDet TestDocs PropsZSet PropsOps.

(** ** C10 *)

(** On a Z-set without negative multiplicities: one document per distinct key
    value [j], and for each of them the aggregator gets the key value of one of
    the group's documents and all values of the group, each repeated by its
    multiplicity, in the order left by sorting. *)
Theorem C10_groups {DD : Docs} : forall sortv o kx vx agg z y,
  order_ok o -> zwf z -> nonneg z -> gather o sortv kx vx agg z = Some y ->
  zwf y /\ exists outs : list (ident * doc),
    NoDup (map fst outs)
    /\ (forall j, In j (map fst outs) <-> exists k d, docs z !! k = Some d /\ group_of kx vx d = Some j)
    /\ (forall j r, In (j, r) outs -> exists k d gk vs,
          docs z !! k = Some d /\ group_of kx vx d = Some j /\ kx d = Some (Some gk)
          /\ Permutation vs (group_values kx vx j (zents z)) /\ agg d gk (agg_values sortv vs) = Some r /\ is_Some (key r))
    /\ forall k, zcount y k = occ k (map snd outs).
Proof. exact (fun sortv o kx vx agg z y => c10_groups sortv o kx vx agg z y). Qed.
Print Assumptions C10_groups.

(** Order independence, the provable part: the extractors respect identity,
    sorting is canonical, and the documents of a group do not differ in a way
    the aggregator shows.  The full statement (without [agg_uniform]) is false,
    see below. *)
Theorem C10_order_partial {DD : Docs} : forall sortv o1 o2 kx vx agg a b,
  order_ok o1 -> order_ok o2 -> zwf a -> zwf b -> zeq a b -> nonneg a ->
  ext_ok kx -> ext_ok vx -> sort_canon sortv -> agg_uniform kx agg a ->
  res_eq (gather o1 sortv kx vx agg a) (gather o2 sortv kx vx agg b).
Proof. exact (fun sortv o1 o2 kx vx agg a b => c10_det sortv o1 o2 kx vx agg a b). Qed.
Print Assumptions C10_order_partial.

(** Group by id, gather the last digit.  [ex_agg] does what package pipeline
    does: it replaces the value (the last digit) in a copy of a representative
    document and keeps the rest of it.  [ex_agg2] builds a new document. *)
Definition ex_kx : extractor := fun d => Some (Some (d_id d)).
Definition ex_vx : extractor := fun d => if d_val d =? 0 then Some None else Some (Some (d_val d mod 10)).
Definition zlsum (l : list Z) : Z := fold_right (fun v s => Z.max 0 v + s) 0 l.
Definition ex_agg : aggregator := fun d _ vs => Some (TDoc (d_id d) (1000 * (d_val d / 10) + zlsum vs) true).
Definition ex_agg2 : aggregator := fun d gk vs => Some (TDoc gk (zlsum vs) true).
Definition ex_sort : list Z -> list Z := merge_sort Z.le.
Definition ex_g : zset := default zempty (add_all zempty [(TDoc 1 12 true, 2); (TDoc 1 25 true, 1); (TDoc 2 33 true, 1); (TDoc 3 0 true, 1)]).
Lemma ex_g_wf : zwf ex_g.
Proof. apply reachable_wf. eapply (add_all_reachable (DD:=test_docs) [(TDoc 1 12 true, 2); (TDoc 1 25 true, 1); (TDoc 2 33 true, 1); (TDoc 3 0 true, 1)]); [apply r_empty|reflexivity]. Qed.
Lemma ex_g_nonneg : nonneg ex_g.
Proof.
  intros k. unfold zcount. destruct (counts ex_g !! k) as [c|] eqn:E; [|done]. simpl.
  apply elem_of_map_to_list, elem_of_list_In in E.
  assert (F : Forall (fun kc : Z * Z * Z => 0 <= kc.2) (map_to_list (counts ex_g))).
  { assert (forallb (fun kc : Z * Z * Z => 0 <=? kc.2) (map_to_list (counts ex_g)) = true) as H by (vm_compute; reflexivity).
    rewrite forallb_forall in H. apply List.Forall_forall. intros x Hx. apply H in Hx. lia. }
  rewrite List.Forall_forall in F. by apply F in E.
Qed.
Lemma ex_kx_ok : ext_ok ex_kx /\ ext_ok ex_vx.
Proof.
  split; same_docs; unfold ex_kx, ex_vx; simpl; [done|]. destruct (v1 =? 0); done.
Qed.
Lemma ex_agg2_ok z : agg_uniform ex_kx ex_agg2 z.
Proof.
  intros d1 d2 k1 k2 g1 g2 vs1 vs2 E1 _ E2 _ [= <-] [= <-] Ej Ev. simpl in Ej, E1, E2.
  destruct (d_id d1 <? 0) eqn:L1, (d_id d2 <? 0) eqn:L2; simpl in *; try done.
  assert (d_id d1 = d_id d2) as -> by congruence.
  assert (zlsum vs1 = zlsum vs2) as ->; [|done].
  clear -Ev. revert vs2 Ev. induction vs1 as [|v1 vs1 IH]; destruct vs2 as [|v2 vs2]; simpl; intros Ev; try done.
  injection Ev as E Ev. rewrite (IH vs2 Ev). destruct (Z.ltb_spec v1 0), (Z.ltb_spec v2 0); try done; [lia|]. by injection E as ->.
Qed.
Lemma ex_sort_canon : sort_canon (DD:=test_docs) ex_sort.
Proof.
  split; [apply merge_sort_Permutation|]. intros l l' P.
  set (h := fun j : option (Z * Z) => match j with Some p => p.1 | None => -1 end).
  assert (Hh : forall l, map h (map (vjson (Docs:=test_docs)) l) = map (Z.max (-1)) l).
  { intros m. rewrite map_map. apply map_ext. intros v. simpl. destruct (Z.ltb_spec v 0); simpl; lia. }
  assert (Hv : forall l, map (vjson (Docs:=test_docs)) l = map (fun w => if w <? 0 then None else Some (w, 0)) (map (Z.max (-1)) l)).
  { intros m. rewrite map_map. apply map_ext. intros v. simpl.
    destruct (Z.ltb_spec v 0), (Z.ltb_spec (Z.max (-1) v) 0); try lia; [done|]. by replace (Z.max (-1) v) with v by lia. }
  assert (S : forall l, Sorted Z.le (map (Z.max (-1)) (ex_sort l))).
  { intros m. assert (H : Sorted Z.le (ex_sort m)) by (apply (Sorted_merge_sort Z.le)). revert H. generalize (ex_sort m).
    induction 1 as [|x xs Hs IH Hd]; simpl; constructor; [done|]. destruct Hd; simpl; constructor. lia. }
  rewrite (Hv (ex_sort l)), (Hv (ex_sort l')). f_equal. apply (Sorted_unique Z.le); [apply S..|].
  apply (Permutation_map h) in P. rewrite !Hh in P.
  unfold ex_sort. rewrite !merge_sort_Permutation. exact P.
Qed.

Example ex_C10 : zwf ex_g /\ nonneg ex_g /\ ext_ok ex_kx /\ ext_ok ex_vx /\ sort_canon ex_sort /\ agg_uniform ex_kx ex_agg2 ex_g
  /\ (y ← gather rev_order ex_sort ex_kx ex_vx ex_agg2 ex_g; zmult y (TDoc 1 9 true)) = Some 1
  /\ (y ← gather rev_order ex_sort ex_kx ex_vx ex_agg2 ex_g; Some (zsize rev_order y)) = Some 2.
Proof.
  split; [apply ex_g_wf|]. split; [apply ex_g_nonneg|]. split; [apply ex_kx_ok|]. split; [apply ex_kx_ok|].
  split; [apply ex_sort_canon|]. split; [apply ex_agg2_ok|]. split; vm_compute; reflexivity.
Qed.

(** FALSE: with the aggregator of package pipeline (pkg/pipeline/op.go:211-226:
    the gathered list is written into a copy of one document of the group), the
    result depends on the iteration order, because the rest of the document
    comes from whichever document was visited first. *)
Theorem C10_order_refuted : exists o1 o2 z,
  order_ok o1 /\ order_ok o2 /\ zwf z /\ nonneg z /\ ext_ok ex_kx /\ ext_ok ex_vx /\ sort_canon ex_sort
  /\ (y ← gather o1 ex_sort ex_kx ex_vx ex_agg z; zmult y (TDoc 1 1009 true)) = Some 1
  /\ (y ← gather o2 ex_sort ex_kx ex_vx ex_agg z; zmult y (TDoc 1 1009 true)) = Some 0.
Proof.
  exists std_order, rev_order, ex_g.
  split; [apply ex_z_reachable|]. split; [apply ex_z_reachable|]. split; [apply ex_g_wf|]. split; [apply ex_g_nonneg|].
  split; [apply ex_kx_ok|]. split; [apply ex_kx_ok|]. split; [apply ex_sort_canon|].
  first [split; vm_compute; reflexivity].
Qed.
Print Assumptions C10_order_refuted.

Definition ex_n1 : zset := default zempty (add_all zempty [(TDoc 1 12 true, 1); (TDoc 1 22 true, -1)]).
Definition ex_n2 : zset := default zempty (add_all zempty [(TDoc 1 12 true, 1); (TDoc 1 13 true, -1)]).
(** FALSE for negative multiplicities, even if the aggregator is uniform: a
    retraction visited before the value it retracts is lost. *)
Theorem C10_negative_refuted : exists o1 o2 z,
  order_ok o1 /\ order_ok o2 /\ zwf z /\ ext_ok ex_kx /\ ext_ok ex_vx /\ sort_canon ex_sort /\ agg_uniform ex_kx ex_agg2 z
  /\ (y ← gather o1 ex_sort ex_kx ex_vx ex_agg2 z; zmult y (TDoc 1 0 true))
     <> (y ← gather o2 ex_sort ex_kx ex_vx ex_agg2 z; zmult y (TDoc 1 0 true)).
Proof.
  exists std_order, rev_order, ex_n1.
  split; [apply ex_z_reachable|]. split; [apply ex_z_reachable|].
  split; [apply reachable_wf; eapply (add_all_reachable (DD:=test_docs) [(TDoc 1 12 true, 1); (TDoc 1 22 true, -1)]); [apply r_empty|reflexivity]|].
  split; [apply ex_kx_ok|]. split; [apply ex_kx_ok|]. split; [apply ex_sort_canon|]. split; [apply ex_agg2_ok|].
  vm_compute. discriminate.
Qed.
Print Assumptions C10_negative_refuted.

(** ** C11 *)

(** Removing integrate-differentiate pairs and collapsing distincts: the two
    chains have the same error-free behaviours ([chain_stream]: any iteration
    order and any representation of the inputs of each operator). *)
Theorem C11_integrate_differentiate {DD : Docs} : forall sortv cs zs outs,
  Forall op_fresh (map cn_op cs) -> Forall zwf zs ->
  chain_stream sortv (id_elim cs) zs outs <-> chain_stream sortv cs zs outs.
Proof. exact (fun sortv cs zs outs H Wz => id_elim_sound sortv cs H zs outs Wz). Qed.
Print Assumptions C11_integrate_differentiate.

Theorem C11_distinct {DD : Docs} : forall sortv cs zs outs,
  Forall op_wf (map cn_op cs) -> Forall zwf zs ->
  chain_stream sortv (distinct_opt cs) zs outs <-> chain_stream sortv cs zs outs.
Proof. exact (fun sortv cs zs outs H Wz => distinct_opt_sound sortv cs H zs outs Wz). Qed.
Print Assumptions C11_distinct.

(** Fusions: whatever the fused chain emits, the original chain emits. *)
Theorem C11_fusion_sound {DD : Docs} : forall sortv cs zs outs,
  Forall op_wf (map cn_op cs) -> Forall evs_ok (map cn_op cs) -> Forall zwf zs ->
  (chain_stream sortv (fuse_sel_projs (length cs) cs) zs outs -> chain_stream sortv cs zs outs)
  /\ (chain_stream sortv (fuse_proj_sel cs) zs outs -> chain_stream sortv cs zs outs).
Proof.
  exact (fun sortv cs zs outs Wc Hok Wz =>
    conj (fuse_sel_projs_sound sortv (length cs) cs zs outs (le_n _) Wc Hok Wz)
         (fuse_proj_sel_sound sortv cs zs outs Wc Hok Wz)).
Qed.
Print Assumptions C11_fusion_sound.

(** The converse needs user code that does not fail.  Without it the converse is
    false, see C11_fusion_refuted. *)
Theorem C11_fusion_complete_partial {DD : Docs} : forall sortv cs zs outs,
  Forall op_wf (map cn_op cs) -> Forall evs_ok (map cn_op cs) -> Forall evs_total (map cn_op cs) -> Forall zwf zs ->
  chain_stream sortv cs zs outs ->
  chain_stream sortv (fuse_sel_projs (length cs) cs) zs outs /\ chain_stream sortv (fuse_proj_sel cs) zs outs.
Proof.
  exact (fun sortv cs zs outs Wc Hok Ht Wz H =>
    conj (fuse_sel_projs_complete sortv (length cs) cs zs outs (le_n _) Wc Hok Ht Wz H)
         (fuse_proj_sel_complete sortv cs zs outs Wc Hok Ht Wz H)).
Qed.
Print Assumptions C11_fusion_complete_partial.

(** The same in terms of runs, for operators whose result is determined by the
    multiplicities of their input: one chain runs without errors iff the other
    does, and they emit the same stream, under any two iteration orders. *)
Definition runs_into {DD : Docs} sortv (o o' : order) (cs cs' : list cnode) (zs : list zset) : Prop :=
  forall outs, (chain_run sortv o 0 cs zs).2 = map Some outs ->
    exists outs', (chain_run sortv o' 0 cs' zs).2 = map Some outs' /\ Forall2 zeq outs outs'.
Theorem C11_runs {DD : Docs} : forall sortv cs o o' zs,
  Forall (node_det sortv) (map cn_op cs) -> Forall evs_ok (map cn_op cs) -> order_ok o -> order_ok o' -> Forall zwf zs ->
  (runs_into sortv o o' cs (id_elim cs) zs /\ runs_into sortv o' o (id_elim cs) cs zs)
  /\ (runs_into sortv o o' cs (distinct_opt cs) zs /\ runs_into sortv o' o (distinct_opt cs) cs zs)
  /\ ((Forall evs_total (map cn_op cs) -> runs_into sortv o o' cs (fuse_sel_projs (length cs) cs) zs)
      /\ runs_into sortv o' o (fuse_sel_projs (length cs) cs) cs zs)
  /\ ((Forall evs_total (map cn_op cs) -> runs_into sortv o o' cs (fuse_proj_sel cs) zs)
      /\ runs_into sortv o' o (fuse_proj_sel cs) cs zs).
Proof.
  exact (fun sortv cs o o' zs D Hok Ho Ho' Wz =>
    conj (c11_id_elim sortv cs o o' zs D Ho Ho' Wz)
    (conj (c11_distinct sortv cs o o' zs D Ho Ho' Wz)
    (conj (c11_fuse_sel_projs sortv cs o o' zs D Hok Ho Ho' Wz)
          (c11_fuse_proj_sel sortv cs o o' zs D Hok Ho Ho' Wz)))).
Qed.
Print Assumptions C11_runs.

(** User code that yields encodable documents only. *)
Definition ex_sel' : evaluator := fun d => Some (if (7 <? d_val d) && (0 <=? d_id d) then [d] else []).
Definition ex_proj' : evaluator := fun d => Some [TDoc (Z.max 0 (d_id d)) (d_val d / 10) true].
Lemma ex_sel'_ok : ev_ok ex_sel' /\ ev_keyed ex_sel' /\ ev_total ex_sel'.
Proof.
  split; [|split].
  - same_docs. unfold ex_sel'; simpl. destruct (_ && _); simpl; [|done]. by rewrite Heqb.
  - intros d l d' _ [= <-] Hin. destruct (7 <? d_val d), (0 <=? d_id d) eqn:E; simpl in Hin; try done.
    destruct Hin as [<-|[]]. simpl. destruct (d_id d <? 0) eqn:E2; [lia|eauto].
  - intros d _. unfold ex_sel'. eauto.
Qed.
Lemma ex_proj'_ok : ev_ok ex_proj' /\ ev_keyed ex_proj' /\ ev_total ex_proj' /\ ev_single ex_proj'.
Proof.
  split_and!.
  - same_docs. done.
  - intros d l d' _ [= <-] [<-|[]]. simpl. destruct (Z.max 0 (d_id d) <? 0) eqn:E2; [lia|eauto].
  - intros d _. unfold ex_proj'. eauto.
  - intros d l [= <-]. done.
Qed.
Definition ex_stages : list op := [OSelect ex_sel'; OProject ex_proj'; OProject ex_proj'].
Lemma ex_stages_ok : Forall op_ok ex_stages /\ Forall op_total ex_stages /\ Forall evs_ok ex_stages /\ Forall evs_total ex_stages
  /\ Forall (op_det (fun l => l)) ex_stages.
Proof.
  destruct ex_sel'_ok as (S1 & S2 & S3), ex_proj'_ok as (P1 & P2 & P3 & P4).
  assert (D1 : op_det (fun l => l) (OSelect ex_sel')) by (apply op_det_simple; [done|split; done]).
  assert (D2 : op_det (fun l => l) (OProject ex_proj')) by (apply op_det_simple; [done|split; done]).
  split_and!; unfold ex_stages; repeat (apply Forall_cons; split); try (apply Forall_nil; done); try done; simpl; try split_and!; done.
Qed.
Example ex_C11 : Forall (node_det (fun l => l)) (map cn_op (user_chain ex_stages)) /\ Forall evs_total (map cn_op (user_chain ex_stages))
  /\ fuse_sel_projs 3 (user_chain ex_stages) = [CNode (OSelProjs (Some ex_sel') [ex_proj'; ex_proj']) false]
  /\ map (fun r => y ← r; zmult y (TDoc 1 0 true)) (chain_run (fun l => l) rev_order 0 (fuse_sel_projs 3 (user_chain ex_stages)) [ex_a; ex_b]).2
     = [Some 2; Some (-2)].
Proof.
  destruct ex_stages_ok as (_ & _ & _ & T & D). split; [|split; [exact T|]; split; [reflexivity|vm_compute; reflexivity]].
  unfold user_chain. rewrite map_map. simpl. unfold ex_stages in D. simpl.
  apply Forall_cons in D as [D1 D]. apply Forall_cons in D as [D2 D]. repeat (apply Forall_cons; split); try done.
Qed.

(** FALSE: fusion does not preserve success.  Two documents that cancel after
    the first projection are never seen by a second projection that fails on
    them, but the fused operator fails. *)
Definition ex_fail : evaluator := fun d => None.
Theorem C11_fusion_refuted : exists cs z,
  Forall evs_ok (map cn_op cs) /\ zwf z /\ fuse_sel_projs (length cs) cs <> cs
  /\ map (fun r => zis_zero <$> r) (chain_run (fun l => l) std_order 0 cs [z]).2 = [Some true]
  /\ (chain_run (fun l => l) std_order 0 (fuse_sel_projs (length cs) cs) [z]).2 = [None].
Proof.
  exists (user_chain [OProject ex_proj'; OProject ex_fail]), ex_n2.
  split; [|split; [apply reachable_wf; eapply (add_all_reachable (DD:=test_docs) [(TDoc 1 12 true, 1); (TDoc 1 13 true, -1)]); [apply r_empty|reflexivity]|]].
  - destruct ex_proj'_ok as (P1 & P2 & _). simpl. apply Forall_cons. split; [split; done|]. apply Forall_cons. split; [|apply Forall_nil; done].
    split; [same_docs; done|by intros d l d' _ [=]].
  - split; [done|]. split; vm_compute; reflexivity.
Qed.
Print Assumptions C11_fusion_refuted.

(** ** C12 *)

(** Optimising the graph of any pipeline the user can write succeeds, ends in a
    graph no rule applies to, and New accepts it. *)
Theorem C12_optimize_user_pipelines {DD : Docs} : forall kinds join ps g,
  pipeline_graph kinds join ps = Some g -> forallb user_op ps = true -> kinds <> [] ->
  (optimize g).2 = true /\ rewrite_step (optimize g).1 = None /\ pipeline_new kinds join ps = Some (optimize g).1.
Proof.
  exact (fun kinds join ps g Hg Hu Hk =>
    match c12_optimize kinds join ps g Hg Hu Hk with
    | conj E (conj H1 H2) => conj (eq_trans (f_equal snd E) eq_refl) (conj H1 H2) end).
Qed.
Print Assumptions C12_optimize_user_pipelines.

(** When New refuses: several sources without a join. *)
Theorem C12_construction {DD : Docs} : forall kinds join ps, forallb user_op ps = true -> kinds <> [] ->
  pipeline_new kinds join ps = None <-> join = None /\ (1 < length kinds)%nat.
Proof. exact (fun kinds join ps => c12_construction kinds join ps). Qed.
Print Assumptions C12_construction.

Definition ex_gather : op := OGather ex_kx ex_vx ex_agg2.
Example ex_C12 :
  (length <$> (g_chain <$> pipeline_new ["a"; "b"] (Some ex_jev) [OSelect ex_sel'; OProject ex_proj'; ex_gather; OProject ex_proj'; OSelect ex_sel'; ex_gather])) = Some 8%nat.
Proof. vm_compute. reflexivity. Qed.

(** FALSE for chains built with the library interface: 20 integrators followed
    by 20 differentiators need 20 rounds, and the 20th reports an error. *)
Theorem C12_library_chain_refuted : exists g : graph, validate g = true /\ (optimize g).2 = false
  /\ rewrite_step (optimize g).1 = None.
Proof.
  exists (Graph ["a"] None (user_chain (repeat new_integrator 20 ++ repeat new_differentiator 20))).
  split; [reflexivity|]. split; vm_compute; reflexivity.
Qed.
Print Assumptions C12_library_chain_refuted.

(** ** C13 *)

(** The outputs of the optimised incremental executor over any stream of input
    deltas add up to the result of evaluating the pipeline as written, once, on
    the accumulated inputs.  The from-scratch evaluation is relational because
    gather may depend on iteration order. *)
Theorem C13_incremental {DD : Docs} : forall sortv kinds join ps g g1 o ins outs g' acc,
  pipeline_graph kinds join ps = Some g -> pipeline_new kinds join ps = Some g1 ->
  kinds <> [] -> NoDup kinds -> forallb user_op ps = true -> Forall op_ok ps ->
  (forall jev, join = Some jev -> jev_ok jev) ->
  order_ok o -> ins_wf ins -> exec_run sortv o 0 g1 ins = (g', map Some outs) ->
  accumulated acc kinds ins ->
  exists B, exec_scratch sortv g acc B /\ is_total B outs.
Proof. exact (fun sortv kinds join ps g g1 o ins outs g' acc => c13_core sortv kinds join ps g g1 o ins outs g' acc). Qed.
Print Assumptions C13_incremental.

(** The relational evaluation is what the executor of the unoptimised graph does. *)
Theorem C13_scratch_adequate {DD : Docs} : forall sortv kinds join ps g o acc g' y,
  pipeline_graph kinds join ps = Some g -> forallb user_op ps = true -> (forall jev, join = Some jev -> jev_ok jev) ->
  order_ok o -> map_Forall (fun _ z => zwf z) acc ->
  exec_process sortv o g acc = (g', Some y) -> g' = g /\ exec_scratch sortv g acc y.
Proof. exact (fun sortv kinds join ps g o acc g' y => exec_scratch_adequate sortv kinds join ps g o acc g' y). Qed.
Print Assumptions C13_scratch_adequate.

(** Stages without order dependence: the unoptimised graph, run on the
    accumulated inputs under any iteration order, gives the accumulated outputs. *)
Theorem C13_deterministic {DD : Docs} : forall sortv kinds join ps g g1 o ins outs g' acc o',
  pipeline_graph kinds join ps = Some g -> pipeline_new kinds join ps = Some g1 ->
  kinds <> [] -> NoDup kinds -> forallb user_op ps = true -> Forall op_ok ps -> Forall (op_det sortv) ps ->
  (forall jev, join = Some jev -> jev_ok jev) ->
  order_ok o -> order_ok o' -> ins_wf ins -> exec_run sortv o 0 g1 ins = (g', map Some outs) ->
  accumulated acc kinds ins -> map_Forall (fun _ z => zwf z) acc -> size acc = length kinds ->
  exists B, exec_process sortv o' g acc = (g, Some B) /\ is_total B outs.
Proof. exact (fun sortv kinds join ps g g1 o ins outs g' acc o' => c13_det sortv kinds join ps g g1 o ins outs g' acc o'). Qed.
Print Assumptions C13_deterministic.

(** The same with gather, for accumulated inputs without negative
    multiplicities (all that actual objects produce). *)
Theorem C13_deterministic_gather {DD : Docs} : forall sortv kinds join ps g g1 o ins outs g' acc o',
  pipeline_graph kinds join ps = Some g -> pipeline_new kinds join ps = Some g1 ->
  kinds <> [] -> NoDup kinds -> forallb user_op ps = true -> Forall op_ok ps -> Forall (op_posdet sortv) ps ->
  (forall jev, join = Some jev -> jev_ok jev) ->
  order_ok o -> order_ok o' -> ins_wf ins -> exec_run sortv o 0 g1 ins = (g', map Some outs) ->
  accumulated acc kinds ins -> map_Forall (fun _ z => zwf z /\ nonneg z) acc -> size acc = length kinds ->
  exists B, exec_process sortv o' g acc = (g, Some B) /\ is_total B outs /\ nonneg B.
Proof. exact (fun sortv kinds join ps g g1 o ins outs g' acc o' => c13_posdet sortv kinds join ps g g1 o ins outs g' acc o'). Qed.
Print Assumptions C13_deterministic_gather.

(** Which stages are deterministic in this sense. *)
Theorem C13_deterministic_stages {DD : Docs} : forall sortv,
  (forall ev, ev_ok ev -> ev_keyed ev -> op_det sortv (OSelect ev) /\ op_det sortv (OProject ev))
  /\ (forall ex tr, ev_ok (unwind_ev ex tr) -> op_det sortv (OUnwind ex tr))
  /\ (forall p, op_det sortv p -> op_posdet sortv p)
  /\ (forall kx vx agg, ext_ok kx -> ext_ok vx -> sort_canon sortv -> agg_const kx agg -> op_posdet sortv (OGather kx vx agg)).
Proof.
  exact (fun sortv =>
    conj (fun ev H K => conj (op_det_simple sortv (OSelect ev) I (conj H K)) (op_det_simple sortv (OProject ev) I (conj H K)))
    (conj (fun ex tr H => op_det_unwind sortv ex tr H)
    (conj (fun p H => op_det_posdet sortv p H)
          (fun kx vx agg H1 H2 H3 H4 => posdet_gather sortv kx vx agg H1 H2 H3 H4)))).
Qed.
Print Assumptions C13_deterministic_stages.

(** User code that does not fail: no evaluation fails. *)
Theorem C13_total {DD : Docs} : forall sortv kinds join ps g1 o ins,
  pipeline_new kinds join ps = Some g1 -> kinds <> [] -> NoDup kinds -> forallb user_op ps = true ->
  Forall op_ok ps -> Forall op_total ps -> (forall jev, join = Some jev -> jev_ok jev /\ jev_total jev) ->
  order_ok o -> Forall (feeds kinds) ins -> exists outs, (exec_run sortv o 0 g1 ins).2 = map Some outs.
Proof. exact (fun sortv kinds join ps g1 o ins => c13_total sortv kinds join ps g1 o ins). Qed.
Print Assumptions C13_total.

(** A join, a projection and a gather; three deltas, the last one retracting. *)
Definition ex_ps : list op := [OSelect ex_sel'; OProject ex_proj'; ex_gather].
Definition ex_g1 : graph := default new_graph (pipeline_new ["a"; "b"] (Some ex_jev) ex_ps).
Definition ex_feed (a b : zset) : gmap string zset := <["a" := a]> (<["b" := b]> ∅).
Definition ex_neg (z : zset) : zset := default zempty (zsub std_order zempty z).
Example ex_C13 : bool_decide (is_Some (pipeline_new ["a"; "b"] (Some ex_jev) ex_ps)) = true
  /\ forallb user_op ex_ps = true /\ Forall op_ok ex_ps /\ Forall (op_posdet ex_sort) ex_ps
  /\ map (fun r => y ← r; m1 ← zmult y (TDoc 1 12 true); m2 ← zmult y (TDoc 2 6 true); Some (m1, m2))
       (exec_run ex_sort rev_order 0 ex_g1 [ex_feed ex_g ex_g; ex_feed ex_g zempty; ex_feed (ex_neg ex_g) zempty]).2
     = [Some (0, 1); Some (0, -1); Some (0, 1)].
Proof.
  destruct ex_sel'_ok as (S1 & S2 & S3), ex_proj'_ok as (P1 & P2 & P3 & P4), ex_kx_ok as [K1 K2].
  split; [vm_compute; reflexivity|]. split; [reflexivity|]. split; [|split; [|vm_compute; reflexivity]].
  - unfold ex_ps. repeat (apply Forall_cons; split); try (apply Forall_nil; done); simpl; try split_and!; done.
  - unfold ex_ps. repeat (apply Forall_cons; split); try (apply Forall_nil; done).
    + apply op_det_posdet, op_det_simple; [done|split; done].
    + apply op_det_posdet, op_det_simple; [done|split; done].
    + apply posdet_gather; try done; [apply ex_sort_canon|]. intros z. apply ex_agg2_ok.
Qed.

(** ** C14 *)

(** Pipelines without join and gather: the executor keeps no state at all, so a
    failed evaluation cannot leave a trace. *)
Theorem C14_stateless_partial {DD : Docs} : forall sortv kind ps g1,
  pipeline_new [kind] None ps = Some g1 ->
  forallb (fun p => user_op p && negb (is_nonlinear p)) ps = true ->
  forall o i, (exec_process sortv o g1 i).1 = g1.
Proof. exact (fun sortv kind ps g1 => c14_nojoin sortv kind ps g1). Qed.
Print Assumptions C14_stateless_partial.

(** Joins without gather, when only the join can fail: whatever is evaluated
    later gives the same results as if the failed delta had not been submitted. *)
Theorem C14_join_partial {DD : Docs} : forall sortv kinds jev ps g1 o hist oi i,
  pipeline_new kinds (Some jev) ps = Some g1 -> kinds <> [] ->
  forallb (fun p => user_op p && negb (is_nonlinear p)) ps = true -> Forall op_ok ps -> Forall op_total ps -> jev_ok jev ->
  order_ok o -> order_ok oi -> ins_wf hist -> map_Forall (fun _ z => zwf z) i ->
  let g := (exec_run sortv o 0 g1 hist).1 in
  (exec_process sortv oi g i).2 = None ->
  forall o' n ins, (exec_run sortv o' n (exec_process sortv oi g i).1 ins).2 = (exec_run sortv o' n g ins).2.
Proof. exact (fun sortv kinds jev ps g1 o hist oi i => c14_join sortv kinds jev ps g1 o hist oi i). Qed.
Print Assumptions C14_join_partial.
(** A join that fails on the value 99, followed by stages that never fail. *)
Definition ex_jfail : join_evaluator := fun t => if existsb (fun d => d_val d =? 99) t then None else ex_jev t.
Definition ex_99 : zset := default zempty (add_all zempty [(TDoc 1 99 true, 1)]).
Example ex_C14 :
  let g1 := default new_graph (pipeline_new ["a"; "b"] (Some ex_jfail) ex_stages) in
  let g := (exec_run (fun l => l) std_order 0 g1 [ex_feed ex_g ex_g]).1 in
  bool_decide ((exec_process (fun l => l) std_order g (ex_feed ex_99 ex_g)).2 = None) = true
  /\ map (fun r => zis_zero <$> r) (exec_run (fun l => l) std_order 0 (exec_process (fun l => l) std_order g (ex_feed ex_99 ex_g)).1 [ex_feed ex_g ex_g]).2 = [Some false].
Proof. split; vm_compute; reflexivity. Qed.

(** FALSE with gather: the integrator in front of the gather has taken up the
    bad document before the gather fails, so a later harmless delta fails as well. *)
Definition ex_badkx : extractor := fun d => if d_val d =? 99 then None else Some (Some (d_id d)).
Theorem C14_gather_refuted : exists (ps : list op) g1 bad good,
  pipeline_new ["a"] None ps = Some g1 /\ forallb user_op ps = true
  /\ (exec_process ex_sort std_order g1 bad).2 = None
  /\ (exec_process ex_sort std_order (exec_process ex_sort std_order g1 bad).1 good).2 = None
  /\ (zis_zero <$> (exec_process ex_sort std_order g1 good).2) = Some false.
Proof.
  exists [OGather ex_badkx ex_vx ex_agg2].
  destruct (pipeline_new ["a"] None [OGather ex_badkx ex_vx ex_agg2]) as [g1|] eqn:E; [|exfalso; vm_compute in E; discriminate].
  exists g1, (<["a" := ex_99]> ∅), (<["a" := ex_g]> ∅).
  replace g1 with (default new_graph (pipeline_new ["a"] None [OGather ex_badkx ex_vx ex_agg2])) by (by rewrite E).
  split; [vm_compute; reflexivity|]. split; [reflexivity|]. split; [vm_compute; reflexivity|]. split; vm_compute; reflexivity.
Qed.
Print Assumptions C14_gather_refuted.

(** FALSE with a join followed by a stage that fails: the join has advanced, so
    the documents of the failed delta take part in later joins. *)
Definition ex_fl : evaluator := fun d => if d_val d =? 666 then None else Some [d].
Definition ex_d1 := ex_feed (default zempty (add_all zempty [(TDoc 1 600 true, 1); (TDoc 2 5 true, 1)])) (default zempty (add_all zempty [(TDoc 1 66 true, 1)])).
Definition ex_d2 := ex_feed zempty (default zempty (add_all zempty [(TDoc 2 7 true, 1)])).
Theorem C14_join_chain_refuted : exists (ps : list op) g1 d1 d2,
  pipeline_new ["a"; "b"] (Some ex_jev) ps = Some g1 /\ forallb user_op ps = true
  /\ (exec_process (fun l => l) std_order g1 d1).2 = None
  (* d2 alone, on a fresh executor: nothing joins *)
  /\ (zis_zero <$> (exec_process (fun l => l) std_order g1 d2).2) = Some true
  (* d2 after the failed d1: joins with the documents of d1 *)
  /\ (zis_zero <$> (exec_process (fun l => l) std_order (exec_process (fun l => l) std_order g1 d1).1 d2).2) = Some false.
Proof.
  exists [OSelect ex_fl].
  destruct (pipeline_new ["a"; "b"] (Some ex_jev) [OSelect ex_fl]) as [g1|] eqn:E; [|exfalso; vm_compute in E; discriminate].
  exists g1, ex_d1, ex_d2.
  replace g1 with (default new_graph (pipeline_new ["a"; "b"] (Some ex_jev) [OSelect ex_fl])) by (by rewrite E).
  split; [vm_compute; reflexivity|]. split; [reflexivity|]. split; [vm_compute; reflexivity|]. split; vm_compute; reflexivity.
Qed.
Print Assumptions C14_join_chain_refuted.

(** ** C15 *)

(** After Reset, graphs whose join (if any) is not the n-ary incremental join
    behave like the freshly constructed graph. *)
Theorem C15_reset_partial {DD : Docs} : forall sortv o o' n g hist ins,
  graph_fresh g -> match g_join g with Some j => not_jinc j = true | None => True end ->
  exec_run sortv o' n (exec_reset (exec_run sortv o 0 g hist).1) ins = exec_run sortv o' n g ins.
Proof. exact (fun sortv o o' n g hist ins => c15_fresh sortv o o' n ins g hist). Qed.
Print Assumptions C15_reset_partial.
Example ex_C15 :
  let g := default new_graph (pipeline_new ["a"] None [ex_gather]) in
  graph_fresh g /\ g_join g = None
  /\ map (fun r => zis_zero <$> r) (exec_run ex_sort std_order 0 g [<["a" := ex_g]> ∅; <["a" := zempty]> ∅]).2 = [Some false; Some true]
  /\ map (fun r => zis_zero <$> r) (exec_run ex_sort std_order 0 (exec_reset (exec_run ex_sort std_order 0 g [<["a" := ex_g]> ∅]).1) [<["a" := ex_g]> ∅]).2 = [Some false].
Proof.
  split; [|split; [reflexivity|split; vm_compute; reflexivity]].
  split; [|done]. change (Forall (fun c : cnode => op_fresh (cn_op c)) (lifted ex_gather)). repeat (apply Forall_cons; split); try (apply Forall_nil; done); done.
Qed.

(** FALSE for every pipeline with a join: Reset does not know the operator New
    uses (executor.go:110-123 lists the binary join only). *)
Theorem C15_join_refuted : exists (ps : list op) g1 hist i,
  pipeline_new ["a"; "b"] (Some ex_jev) ps = Some g1
  /\ (zis_zero <$> (exec_process (fun l => l) std_order g1 i).2) = Some true
  /\ (zis_zero <$> (exec_process (fun l => l) std_order (exec_reset (exec_run (fun l => l) std_order 0 g1 [hist]).1) i).2) = Some false.
Proof.
  exists [].
  destruct (pipeline_new ["a"; "b"] (Some ex_jev) []) as [g1|] eqn:E; [|exfalso; vm_compute in E; discriminate].
  exists g1, (ex_feed ex_g ex_g), (ex_feed ex_g zempty).
  replace g1 with (default new_graph (pipeline_new ["a"; "b"] (Some ex_jev) [])) by (by rewrite E).
  split; [vm_compute; reflexivity|]. split; vm_compute; reflexivity.
Qed.
Print Assumptions C15_join_refuted.

(** ** C16 *)

(** Pipelines of selections and projections (with or without join): conversion
    succeeds, and converting back gives the incremental graph. *)
Theorem C16_available_partial {DD : Docs} : forall kinds join ps g1,
  pipeline_new kinds join ps = Some g1 -> kinds <> [] -> forallb basic_op ps = true ->
  exists gs, to_snapshot_graph g1 = Some gs /\ to_incremental_graph gs = Some g1.
Proof.
  exact (fun kinds join ps g1 H Hk Hb =>
    match c16_available kinds join ps g1 H Hk Hb with ex_intro _ gs (conj H1 (conj H2 _)) => ex_intro _ gs (conj H1 H2) end).
Qed.
Print Assumptions C16_available_partial.

(** ... and the snapshot graph computes what the stages as written compute on
    complete inputs. *)
Theorem C16_meaning_partial {DD : Docs} : forall sortv kinds join ps g g1 gs o o' acc gs' y,
  pipeline_graph kinds join ps = Some g -> pipeline_new kinds join ps = Some g1 -> to_snapshot_graph g1 = Some gs ->
  kinds <> [] -> forallb basic_op ps = true -> Forall op_ok ps -> (forall jev, join = Some jev -> jev_ok jev) ->
  order_ok o -> order_ok o' -> map_Forall (fun _ z => zwf z) acc ->
  exec_process sortv o gs acc = (gs', Some y) ->
  gs' = gs /\ exists y', exec_process sortv o' g acc = (g, Some y') /\ zeq y y'.
Proof. exact (fun sortv kinds join ps g g1 gs o o' acc gs' y => c16_snapshot_eq sortv kinds join ps g g1 gs o o' acc gs' y). Qed.
Print Assumptions C16_meaning_partial.

Theorem C16_total_partial {DD : Docs} : forall sortv kinds join ps g1 gs o acc,
  pipeline_new kinds join ps = Some g1 -> to_snapshot_graph g1 = Some gs -> kinds <> [] -> NoDup kinds ->
  forallb basic_op ps = true -> Forall op_ok ps -> Forall op_total ps -> (forall jev, join = Some jev -> jev_ok jev /\ jev_total jev) ->
  order_ok o -> feeds kinds acc -> exists y, exec_process sortv o gs acc = (gs, Some y).
Proof. exact (fun sortv kinds join ps g1 gs o acc => c16_total sortv kinds join ps g1 gs o acc). Qed.
Print Assumptions C16_total_partial.

Example ex_C16 :
  let g1 := default new_graph (pipeline_new ["a"; "b"] (Some ex_jev) ex_stages) in
  let gs := default new_graph (to_snapshot_graph g1) in
  Forall op_ok ex_stages /\ Forall op_total ex_stages /\ forallb basic_op ex_stages = true
  /\ bool_decide (is_Some (to_snapshot_graph g1)) = true
  /\ (zis_zero <$> (exec_process (fun l => l) std_order gs (ex_feed ex_g ex_g)).2) = Some false.
Proof.
  split; [apply ex_stages_ok|]. split; [apply ex_stages_ok|]. split; [reflexivity|]. split; vm_compute; reflexivity.
Qed.

(** FALSE for every pipeline with a @gather or an @unwind: the snapshot
    conversion (and with it Sync) fails. *)
Theorem C16_gather_unwind_refuted {DD : Docs} : forall kinds join ps g1,
  pipeline_new kinds join ps = Some g1 -> kinds <> [] -> forallb user_op ps = true -> forallb basic_op ps = false ->
  to_snapshot_graph g1 = None.
Proof. exact (fun kinds join ps g1 => c16_unavailable kinds join ps g1). Qed.
Print Assumptions C16_gather_unwind_refuted.
Example ex_C16_refuted : forallb user_op [ex_gather] = true /\ forallb basic_op [ex_gather] = false
  /\ bool_decide (is_Some (pipeline_new ["a"] None [ex_gather])) = true.
Proof. split; [reflexivity|]. split; [reflexivity|]. vm_compute. reflexivity. Qed.
