(** Sync (C21). *)
From Verif Require Import JsonModel ObjModel ZSetModel OpsModel ExecModel PipelineModel ZSetSpec OpsSpec GatherSpec ExecSpec JsonSpec CleanSpec PipelineSpec.
From Verif Require Import JsonProofs JsonIdent CleanProofs ZSetProofs ZSetProofs2 OpsProofs StreamProofs JoinProofs ChainProofs2 OptProofs IncrProofs IncrProofs2 GatherProofs GatherDet ExecMisc ReconcileProofs ObjProofs ConvertProofs TargetProofs PipeProofs PipeProofs2 PipeProofs3.

(** ** The graph behind the snapshot executor *)
Section graph.
Context {DD : Docs}.
Variable sortv : list val -> list val.
Definition same_shape (g g' : graph) : Prop :=
  g_inputs g' = g_inputs g /\ g_chain g' = g_chain g
  /\ match g_join g, g_join g' with
     | None, None => True
     | Some (JInc jev n _), Some (JInc jev' n' _) => jev = jev' /\ n = n'
     | _, _ => False
     end.
Lemma same_shape_snapshot g g' : same_shape g g' -> to_snapshot_graph g' = to_snapshot_graph g.
Proof.
  destruct g as [is j cs], g' as [is' j' cs']. intros (E1 & E2 & E3). simpl in *. subst.
  unfold to_snapshot_graph, convert_graph, validate. cbn [g_inputs g_join g_chain].
  destruct j as [[]|], j' as [[]|]; try done. destruct E3 as [-> ->]. done.
Qed.
Lemma chain_stateless cs : Forall (fun c => stateless (cn_op c)) cs -> forall o n z, (chain_process sortv o n cs z).1 = cs.
Proof.
  induction 1 as [|c cs Hc Hcs IH]; intros o n z; [done|]. simpl.
  pose proof (stateless_step sortv (osub o n) (cn_op c) z Hc) as E. destruct (process sortv (osub o n) (cn_op c) z) as [p' [y|]]; simpl in *; subst p'.
  - specialize (IH o (S n) y). destruct (chain_process sortv o (S n) cs y) as [cs' r]. simpl in *. subst cs'. by destruct c.
  - by destruct c.
Qed.
Lemma exec_same_shape g0 g o i : Forall (fun c => stateless (cn_op c)) (g_chain g0) -> same_shape g0 g -> same_shape g0 (exec_process sortv o g i).1.
Proof.
  intros Hs Hg. unfold exec_process. destruct (negb _); [done|]. destruct (mapM _ _) as [ins|]; [|done].
  destruct g as [is j cs]. destruct Hg as (E1 & E2 & E3). cbn [g_inputs g_join g_chain] in *. subst is cs.
  destruct j as [j|].
  - destruct (g_join g0) as [[]|] eqn:Ej; try done. destruct j; try done. destruct E3 as [<- <-]. simpl.
    destruct (join_inc (osub o 0) jev n prevs0 ins) as [ps r]. destruct r as [z|]; [|by split_and!; simpl; rewrite ?Ej].
    pose proof (chain_stateless _ Hs (osub o 1) 0%nat z) as Hc. destruct (chain_process sortv (osub o 1) 0 (g_chain g0) z) as [cs r]. simpl in *. subst cs.
    split_and!; simpl; rewrite ?Ej; done.
  - destruct ins as [|z ins]; [done|].
    pose proof (chain_stateless _ Hs (osub o 1) 0%nat z) as Hc. destruct (chain_process sortv (osub o 1) 0 (g_chain g0) z) as [cs r]. simpl in *. subst cs.
    split_and!; simpl; done.
Qed.
Lemma basic_shape kinds join ps g1 : pipeline_new kinds join ps = Some g1 -> kinds <> [] -> forallb basic_op ps = true ->
  Forall (fun c => stateless (cn_op c)) (g_chain g1) /\ same_shape g1 g1.
Proof.
  intros Hg1 Hk Hb. destruct (c16_available kinds join ps g1 Hg1 Hk Hb) as (gs & _ & _ & _ & _ & _).
  destruct (basic_user ps Hb) as (Hu & HL & _).
  destruct (pipeline_graph kinds join ps) as [g|] eqn:Hg; [|by rewrite (pipeline_new_none _ _ _ Hg) in Hg1].
  destruct (c12_optimize kinds join ps g Hg Hu Hk) as (Eo & _ & En).
  rewrite En in Hg1. injection Hg1 as <-. rewrite Eo in *. cbn [fst] in *. clear Eo En.
  pose proof (pipeline_graph_eq _ _ _ _ Hg) as ->. cbn [g_inputs g_join g_chain] in *. split.
  - apply List.Forall_forall. intros c Hc. destruct (opt_basic ps c Hb Hc) as ([p Hp] & _). by destruct (cn_op c).
  - split_and!; try done. cbn [g_join]. by destruct join.
Qed.
End graph.

Lemma esum_ones {DD : Docs} k l : esum (map (fun m => (m, 1)) l) k = occ k l.
Proof. induction l as [|m l IH]; [done|]. unfold esum, occ in *. simpl. rewrite IH. case_decide; lia. Qed.
(** ** Wrapping twice *)
Lemma encapsulate_idem target m i : owf m -> gvk_ok target -> doc_id m = Some i ->
  encapsulate target (encapsulate target m i.1 i.2) i.1 i.2 = encapsulate target m i.1 i.2.
Proof.
  intros W Hg Hi. destruct (encapsulate_ok target m i W Hg Hi) as (_ & Ge & We & _ & He). cbv zeta in *.
  destruct (encapsulate_get target m i (owf_sorted _ W) Hi) as (x & Hx & E).
  destruct (encapsulate_get target _ i (owf_sorted _ We) He) as (y & Hy & ->). rewrite E in Hy. rewrite mget_set_eq in Hy. injection Hy as <-.
  assert (Wx : owf x) by (by eapply owf_get in Hx). pose proof (owf_sorted _ Wx) as Sx.
  assert (Sy : ksorted (meta_of x i)) by (by apply owf_sorted, meta_of_owf).
  assert (EM : meta_of (meta_of x i) i = meta_of x i).
  { destruct (meta_of_names x i Sx) as [N1 N2]. destruct (meta_of_names (meta_of x i) i Sy) as [N3 N4].
    apply mget_ext; [by apply owf_sorted, meta_of_owf, meta_of_owf|done|]. intros k.
    destruct (decide (k = "name"%string)) as [->|H1]; [by rewrite N1, N3|]. destruct (decide (k = "namespace"%string)) as [->|H2]; [by rewrite N2, N4|].
    unfold meta_of at 1. case_decide.
    - rewrite mget_del_ne, mget_set_ne, !mget_del_ne by done. done.
    - rewrite !mget_set_ne, !mget_del_ne by done. done. }
  rewrite EM. rewrite mset_same; [|by apply owf_sorted, set_gvk_owf|].
  - apply mget_ext; [by apply owf_sorted, set_gvk_owf|by apply owf_sorted|]. intros k. destruct Ge as [G1 G2].
    destruct (decide (k = "kind"%string)) as [->|H1]; [by rewrite mget_set_gvk_kind|].
    destruct (decide (k = "apiVersion"%string)) as [->|H2]; [by rewrite mget_set_gvk_av|]. by rewrite mget_set_gvk_ne.
  - rewrite mget_set_gvk_ne by done. rewrite E. apply mget_set_eq.
Qed.

Lemma lsum_one_in {DD : Docs} {A} (f : A -> doc) k (l : list A) e : In e l -> key (f e) = Some k ->
  0 < lsum (fun e => if decide (key (f e) = Some k) then 1 else 0) l.
Proof.
  assert (G : forall l : list A, 0 <= lsum (fun e => if decide (key (f e) = Some k) then 1 else 0) l).
  { induction l0; simpl; [done|]. case_decide; lia. }
  intros Hin Hk. induction l as [|a l IH]; [done|]. simpl. destruct Hin as [->|Hin].
  - rewrite decide_True by done. specialize (G l). lia.
  - specialize (IH Hin). case_decide; lia.
Qed.
Section sync.
Context {FF : FloatFmt}.
Variable P : jobj -> bool.
#[local] Hint Extern 0 Docs => exact (json_docs_on P) : typeclass_instances.
Variable sortv : list json -> list json.
#[local] Notation xp := (@exec_process (json_docs_on P) sortv).
#[local] Notation xs := (@exec_scratch (json_docs_on P) sortv).

(** ** States *)
Record session_inv (target : gvk) (sources : list gvk) (g1 : @graph (json_docs_on P)) (p : pipe P) : Prop := {
  si_sources : p_sources P p = sources;
  si_target : p_target P p = target;
  si_graph : same_shape g1 (p_graph P p);
  si_snap : p_snap P p = None \/ p_snap P p = to_snapshot_graph g1 }.
Lemma session_ok target sources g1 p0 p : Forall (fun c => stateless (cn_op c)) (g_chain g1) ->
  session_inv target sources g1 p0 -> session P sortv p0 p -> session_inv target sources g1 p.
Proof.
  intros Hs H0. induction 1 as [|p o d Hp IH|p o Hp IH|p tgt Hp IH]; [done| | |by destruct IH].
  - destruct IH as [I1 I2 I3 I4]. unfold evaluate. destruct (convert_delta P (p_src P p) d) as [src [z|]]; [|by split].
    cbv zeta. cbn [set_src p_sources p_graph].
    match goal with |- context [xp ?o' ?g ?i] => pose proof (@exec_same_shape (json_docs_on P) sortv g1 g o' i Hs I3) as I3'; destruct (xp o' g i) as [g' [y|]] end; [|by split].
    simpl in I3'. destruct (convert_zset _ _ _ y) as [ds|]; [|by split]. destruct (reconcile _ _ _ ds) as [tgt r]. by split.
  - destruct IH as [I1 I2 I3 I4]. unfold sync.
    assert (E : match p_snap P p with Some g => Some g | None => to_snapshot_graph (p_graph P p) end = to_snapshot_graph g1).
    { destruct I4 as [->|E]; [by apply same_shape_snapshot|]. rewrite E. destruct (to_snapshot_graph g1) eqn:E1; [done|]. rewrite <-E1. by apply same_shape_snapshot. }
    rewrite E. destruct (to_snapshot_graph g1) as [gs|] eqn:Eg; [|split; simpl; auto].
    destruct (mbind _ _) as [ds|]; [|split; simpl; auto]. destruct (reconcile _ _ _ ds) as [tgt r]. split; simpl; auto.
Qed.

(** ** The inputs of the snapshot executor *)
Lemma store_zset_spec o (st : store) (docs0 : list jobj) : order_ok o ->
  Permutation (map (fun kv => remove_uid (obj_copy (obj_copy kv.2))) (map_to_list st)) docs0 ->
  (forall m, m ∈ docs0 -> is_Some (@key (json_docs_on P) m)) ->
  exists a, store_zset P o st = Some a /\ zwf a /\ forall k : string, zcount a k = occ k docs0.
Proof.
  intros Ho HP HK. unfold store_zset, store_list. rewrite map_map.
  set (l := map _ (o jobj [] st)).
  assert (Hl : l = map (fun m => (m, 1)) (map (fun kv => remove_uid (obj_copy (obj_copy kv.2))) (o jobj [] st))) by (unfold l; by rewrite map_map).
  assert (HPl : Permutation (map (fun kv => remove_uid (obj_copy (obj_copy kv.2))) (o jobj [] st)) docs0).
  { rewrite <-HP. apply Permutation_map. apply (Ho jobj [] st). }
  destruct (@add_all_is_Some (json_docs_on P) zempty l) as [a Ea].
  { intros d c Hin. rewrite Hl in Hin. apply in_map_iff in Hin as (m & [= <- <-] & Hm). apply HK. rewrite <-HPl. by apply elem_of_list_In. }
  exists a. split; [exact Ea|]. destruct (@add_all_spec (json_docs_on P) zempty l a wf_empty Ea) as [Wa Ca]. split; [done|].
  intros k. rewrite Ca, (@zcount_empty _). rewrite <-(occ_perm P k _ _ HPl). rewrite Hl. rewrite (esum_ones (DD := json_docs_on P)). lia.
Qed.
Lemma store_world sources w src s : NoDup (map gvk_kind sources) -> s ∈ sources -> world_ok P sources w -> mirrors src w ->
  Permutation (map (fun kv => remove_uid (obj_copy (obj_copy kv.2))) (map_to_list (default ∅ (src !! s)))) (of_kind (gvk_kind s) w).
Proof.
  intros ND Hs Ww M. unfold of_kind. set (L := List.filter _ (map_to_list w)).
  assert (HL : forall e, In e L <-> w !! e.1 = Some e.2 /\ e.1.1 = s).
  { intros [[g i] m]. unfold L. rewrite filter_In, <-elem_of_list_In, elem_of_map_to_list, bool_decide_eq_true. simpl. split; [|naive_solver].
    intros [Hw Hk]. split; [done|]. destruct (wo_id _ _ _ Ww _ _ Hw) as (E & _ & Hg). injection E as -> _.
    clear -ND Hs Hg Hk. apply elem_of_list_In in Hs, Hg. induction sources as [|a l IH]; [done|]. simpl in ND. apply NoDup_cons in ND as [Hn ND].
    destruct Hs as [->|Hs], Hg as [Hg|Hg]; [done| | |by apply IH]; exfalso; apply Hn.
    - rewrite <-Hk. by apply elem_of_list_In, in_map.
    - subst a. rewrite Hk. by apply elem_of_list_In, in_map. }
  assert (NL : NoDup L). { apply NoDup_ListNoDup, List.NoDup_filter, NoDup_ListNoDup, NoDup_map_to_list. }
  assert (Hperm : Permutation (map_to_list (default ∅ (src !! s))) (map (fun e => (skey e.1.2.1 e.1.2.2, e.2)) L)).
  { apply NoDup_Permutation; [apply NoDup_map_to_list| |].
    - assert (Hinj : forall a b, In a L -> In b L -> (skey a.1.2.1 a.1.2.2, a.2) = (skey b.1.2.1 b.1.2.2, b.2) -> a = b).
      { intros [[g1 i1] m1] [[g2 i2] m2] [Ha Ga]%HL [Hb Gb]%HL E. simpl in *. injection E as E ->. subst. f_equal. f_equal.
        destruct (wo_id _ _ _ Ww _ _ Ha) as (Ea & Pa & _). injection Ea as ->.
        destruct (wo_id _ _ _ Ww _ _ Hb) as (Eb & Pb & _). injection Eb as ->. done. }
      clear -NL Hinj. induction NL as [|a l Hn NL IH]; [constructor|]. simpl. constructor.
      + intros Hin. apply elem_of_list_In, in_map_iff in Hin as (b & E & Hb). apply Hn.
        rewrite <-(Hinj b a); [by apply elem_of_list_In|by right|by left|done].
      + apply IH. intros; apply Hinj; [by right|by right|done].
    - intros [k m]. rewrite elem_of_map_to_list, (M s k m), elem_of_list_In, in_map_iff. split.
      + intros (i & -> & Hw). exists ((s, i), m). split; [done|]. by apply HL.
      + intros ([[g i] m'] & [= <- <-] & He). apply HL in He as [Hw He]. simpl in *. subst g. by exists i. }
  rewrite Hperm, map_map. simpl. erewrite map_ext_in; [reflexivity|]. intros [x m] [Hw _]%HL. simpl in *.
  destruct (wo_doc _ _ _ Ww _ _ Hw) as (O1 & _ & _ & O4).
  assert (E : obj_copy m = m). { rewrite <-O4 at 2. rewrite <-O4 at 1. by apply stripped_copy. }
  rewrite !E. rewrite <-O4 at 2. unfold stripped. by rewrite E.
Qed.

Lemma sync_inputs_ok o p sources w : order_ok o -> p_sources P p = sources -> NoDup (map gvk_kind sources) -> world_ok P sources w -> mirrors (p_src P p) w ->
  exists acc, sync_inputs P o p = Some acc /\ inputs_of P w (map gvk_kind sources) acc /\ feeds (map gvk_kind sources) acc.
Proof.
  intros Ho Es ND Ww M. unfold sync_inputs. rewrite Es.
  assert (Hz : forall s, s ∈ sources -> exists a, match p_src P p !! s with None => Some zempty | Some st => store_zset P o st end = Some a
     /\ zwf a /\ forall k : string, zcount a k = occ k (of_kind (gvk_kind s) w)).
  { intros s Hs. pose proof (store_world sources w (p_src P p) s ND Hs Ww M) as HP.
    destruct (p_src P p !! s) as [st|] eqn:E; simpl in HP.
    - apply store_zset_spec; [done|done|]. intros m Hm. unfold of_kind in Hm. apply elem_of_list_In, in_map_iff in Hm as ([x m'] & <- & Hm).
      apply filter_In in Hm as [Hm _]. apply elem_of_list_In, elem_of_map_to_list in Hm.
      destruct (wo_doc _ _ _ Ww _ _ Hm) as (_ & Hc & HPm & _). destruct (clean_key P m' Hc HPm) as [k0 Hk0]. by exists k0.
    - exists zempty. split; [done|]. split; [apply wf_empty|]. intros k. rewrite zcount_empty. rewrite <-(occ_perm P k _ _ HP).
      by rewrite map_to_list_empty. }
  assert (G : forall (l : list gvk) (acc0 : gmap string (@zset (json_docs_on P))), (forall s, s ∈ l -> s ∈ sources) ->
    exists acc : gmap string (@zset (json_docs_on P)), foldl (fun acc s => m ← acc; z ← match p_src P p !! s with None => Some zempty | Some st => store_zset P o st end; Some (<[gvk_kind s := z]> m)) (Some acc0) l = Some acc
      /\ (forall kd, kd ∈ map gvk_kind l -> exists a, acc !! kd = Some a /\ zwf a /\ forall k : string, zcount a k = occ k (of_kind kd w))
      /\ (forall kd, kd ∉ map gvk_kind l -> acc !! kd = acc0 !! kd)).
  { induction l as [|s l IH]; intros acc0 Hl; simpl.
    - exists acc0. split; [done|]. split; [intros kd Hk; by apply elem_of_nil in Hk|done].
    - destruct (Hz s (Hl s (elem_of_list_here _ _))) as (a & Ea & Wa & Ca). rewrite Ea. simpl.
      destruct (IH (<[gvk_kind s := a]> acc0)) as (acc & E & A1 & A2); [intros; apply Hl; by right|]. exists acc. split; [exact E|]. split.
      + intros kd Hk. destruct (decide (kd ∈ map gvk_kind l)) as [Hin|Hn]; [by apply A1|]. apply elem_of_cons in Hk as [->|Hk]; [|done].
        exists a. rewrite (A2 _ Hn), lookup_insert. done.
      + intros kd Hk. apply not_elem_of_cons in Hk as [H1 H2]. rewrite (A2 _ H2). by rewrite lookup_insert_ne. }
  destruct (G sources ∅) as (acc & E & A1 & A2); [done|]. exists acc. split; [exact E|]. split; [exact A1|]. split; [|split].
  - rewrite <-size_dom. assert (Ed : dom acc = list_to_set (map gvk_kind sources) :> gset string).
    { apply set_eq. intros x. rewrite elem_of_dom, elem_of_list_to_set. destruct (decide (x ∈ map gvk_kind sources)) as [Hx|Hx].
      - destruct (A1 x Hx) as (a & Ha & _). split; [done|]. intros _. by exists a.
      - rewrite (A2 x Hx), lookup_empty. split; [by intros [? ?]|done]. }
    rewrite Ed. by apply size_list_to_set.
  - intros kd Hk. destruct (A1 kd Hk) as (a & Ha & _). by exists a.
  - intros kd z Hz'. destruct (decide (kd ∈ map gvk_kind sources)) as [Hx|Hx].
    + destruct (A1 kd Hx) as (a & Ha & Wa & _). congruence.
    + rewrite (A2 kd Hx), lookup_empty in Hz'. done.
Qed.

(** ** The target cache as a Z-set *)
Lemma target_zset o target tgt : exact P -> gvk_ok target -> order_ok o -> target_ok P target tgt ->
  exists B, store_zset P o tgt = Some B /\ zwf B /\ functional P B /\ shows P target B (held_plain tgt)
    /\ (forall (k : string) d, docs B !! k = Some d <-> @key (json_docs_on P) d = Some k /\ exists k', tgt !! k' = Some d).
Proof.
  intros Hex Hg Ho HT.
  assert (Hm : forall k m, tgt !! k = Some m -> exists i, k = skey i.1 i.2 /\ plain i /\ doc_id m = Some i /\ obj_copy m = m /\ remove_uid m = m
     /\ encapsulate target m i.1 i.2 = m /\ is_Some (@key (json_docs_on P) m)).
  { intros k m Hk. destruct (HT k m Hk) as (i & d & -> & Hp & Wd & Hi & -> & Hu & HK).
    destruct (encapsulate_ok target d i Wd Hg Hi) as (_ & _ & _ & E4 & E5). exists i. split_and!; try done. by apply encapsulate_idem. }
  destruct (store_zset_spec o tgt (map snd (map_to_list tgt)) Ho) as (B & EB & WB & CB).
  { erewrite map_ext_in; [reflexivity|]. intros [k m] Hin. apply elem_of_list_In, elem_of_map_to_list in Hin. simpl.
    destruct (Hm k m Hin) as (i & _ & _ & _ & E1 & E2 & _). by rewrite E1, E1, E2. }
  { intros m Hin. apply elem_of_list_In, in_map_iff in Hin as ([k m'] & <- & Hin). apply elem_of_list_In, elem_of_map_to_list in Hin. by destruct (Hm k m' Hin) as (i & _ & _ & _ & _ & _ & _ & ?). }
  exists B. split; [done|]. split; [done|].
  assert (D : forall (k : string) d, docs B !! k = Some d <-> @key (json_docs_on P) d = Some k /\ exists k', tgt !! k' = Some d).
  { intros k d. specialize (CB k). rewrite (occ_map (DD := json_docs_on P)) in CB. split.
    - intros Hd. destruct (zwf_doc P _ _ _ WB Hd) as [Hk Hn]. split; [done|]. rewrite CB in Hn. clear CB.
      assert (exists e, In e (map_to_list tgt) /\ @key (json_docs_on P) e.2 = Some k) as ([k' m] & Hin & Hk').
      { clear -Hn. induction (map_to_list tgt) as [|e l IH]; [done|]. simpl in Hn. case_decide as Hke; [exists e; split; [by left|done]|].
        destruct IH as (e' & ? & ?); [done|]. exists e'. split; [by right|done]. }
      assert (m = d) by (exact (proj1 Hex m d k Hk' Hk)). subst m. exists k'. by apply elem_of_list_In, elem_of_map_to_list in Hin.
    - intros [Hk [k' Hk']]. destruct (zwf_nz P B k WB) as [d' Hd'].
      + rewrite CB. assert (Hin : In (k', d) (map_to_list tgt)) by (by apply elem_of_list_In, elem_of_map_to_list). clear -Hin Hk.
        pose proof (lsum_one_in (DD := json_docs_on P) snd k (map_to_list tgt) (k', d) Hin Hk) as HL. intros H0. unfold doc in *. simpl in *. rewrite H0 in HL. lia.
      + destruct (zwf_doc P _ _ _ WB Hd') as [Hkd _]. by rewrite (proj1 Hex d d' k Hk Hkd). }
  split; [|split; [|exact D]].
  - split.
    + intros k d Hd. pose proof Hd as [Hk (k' & Hk')]%D. destruct (Hm k' d Hk') as (i & -> & Hp & Hi & _). split; [|by exists i].
      rewrite (CB k), (occ_map (DD := json_docs_on P)). rewrite (lsum_unique _ _ (skey i.1 i.2, d)); [|apply NoDup_map_to_list|by apply elem_of_list_In, elem_of_map_to_list|].
      * simpl. by rewrite decide_True.
      * intros [k2 m2] Hin Hne. simpl. rewrite decide_False; [done|]. intros Hk2. apply Hne.
        assert (m2 = d) by (exact (proj1 Hex m2 d k Hk2 Hk)). subst m2. apply elem_of_list_In, elem_of_map_to_list in Hin.
        destruct (Hm k2 d Hin) as (i2 & -> & _ & Hi2 & _). by assert (i2 = i) as -> by congruence.
    + intros k1 k2 d1 d2 i [K1 (k1' & H1)]%D [K2 (k2' & H2)]%D I1 I2.
      destruct (Hm _ _ H1) as (i1 & -> & _ & I1' & _), (Hm _ _ H2) as (i2 & -> & _ & I2' & _).
      assert (i1 = i) as -> by congruence. assert (i2 = i) as -> by congruence. assert (d1 = d2) as -> by congruence.
      assert (Some k1 = Some k2) as [= ->]; [|done]. exact (eq_trans (eq_sym K1) K2).
  - intros i m. unfold held_plain. split.
    + case_bool_decide as Hp; [|done]. intros Hh. unfold held in Hh. destruct (Hm _ _ Hh) as (j & E & Hpj & Hj & _ & _ & He & [k Hk]).
      assert (i = j) as <- by (by eapply skey_inj). exists k, m. split; [apply D; split; [done|by eexists]|]. done.
    + intros (k & d & [Hk (k' & Hk')]%D & Hi & ->). destruct (Hm _ _ Hk') as (j & -> & Hpj & Hj & _ & _ & He & _).
      assert (j = i) as -> by congruence. rewrite bool_decide_eq_true_2 by done. unfold held. by rewrite He.
Qed.

Lemma reconcile_keys o tgt ds tgt' out : order_ok o -> Forall raw_delta ds -> reconcile P o tgt ds = (tgt', Some out) ->
  forall k m, tgt' !! k = Some m -> tgt !! k = Some m \/ exists d, In d out /\ d_type d = Upserted /\ k = store_key (d_obj d).
Proof.
  intros Ho Hds E. destruct (reconcile_ok P o tgt ds Ho Hds) as (tgt2 & out2 & E2 & _ & _ & R3 & _).
  assert (tgt2 = tgt' /\ out2 = out) as [-> ->] by (split; congruence). clear E2.
  unfold reconcile in E. destruct (group_deltas_ok tgt ds Hds) as (gs & Eg & [G1 G2]). rewrite Eg in E.
  destruct (foldl key_action (tgt, ∅) (o keyops [0%nat] gs)) as [t u] eqn:EF. injection E as -> _.
  assert (HA : forall kx d, In kx (o keyops [0%nat] gs) -> action kx.2 = Some d -> d_type d = Upserted -> In d out).
  { intros [k x] d Hin Ha Ht. assert (Hk : gs !! k = Some x).
    { apply elem_of_list_In in Hin. assert (HP : Permutation (o keyops [0%nat] gs) (map_to_list gs)) by apply Ho. rewrite HP in Hin. by apply elem_of_map_to_list in Hin. }
    destruct (G2 k x Hk) as (i & Hp & -> & Hto). assert (x = ops_of tgt i ds) as -> by (pose proof (eq_trans (eq_sym Hk) (G1 i Hp Hto)) as E0; by injection E0).
    by apply (R3 i d Hp). }
  change tgt' with (tgt', u).1. rewrite <-EF. clear EF. revert HA. generalize (o keyops [0%nat] gs) as l. clear -tgt. intros l.
  assert (G : forall st, (forall kx d, In kx l -> action kx.2 = Some d -> d_type d = Upserted -> In d out) ->
    forall k m, (foldl key_action st l).1 !! k = Some m -> st.1 !! k = Some m \/ exists d, In d out /\ d_type d = Upserted /\ k = store_key (d_obj d)).
  { induction l as [|[k x] l IH]; intros [s v] HA k' m Hk; simpl in *; [by left|].
    apply IH in Hk; [|intros; eapply HA; eauto]. destruct Hk as [Hk|Hk]; [|by right].
    pose proof (key_action_eq s v k x) as EK. unfold key_action in EK. rewrite EK in Hk. clear EK. simpl in Hk. specialize (HA (k, x)). simpl in HA.
    unfold do_action in Hk. destruct (action x) as [d|] eqn:Ea; [|by left]. case_decide as Ht.
    - unfold store_delete in Hk. apply lookup_delete_Some in Hk as [_ Hk]. by left.
    - unfold store_add in Hk. apply lookup_insert_Some in Hk as [[Hk _]|[_ Hk]]; [|by left]. right. exists d.
      assert (d_type d = Upserted). { clear -Ea Ht. unfold action in Ea. repeat case_match; by simplify_eq. }
      split_and!; auto. }
  intros HA. exact (G (tgt, ∅) HA).
Qed.
(** ** Sync *)
Lemma c21_core target sources join ps g p0 p o ds :
  exact P -> gvk_ok target -> sources <> [] -> NoDup (map gvk_kind sources) ->
  forallb basic_op ps = true -> Forall op_ok ps -> (forall jev, join = Some jev -> jev_ok jev) ->
  pipe_new P target sources join ps = Some p0 -> pipeline_graph (map gvk_kind sources) join ps = Some g ->
  session P sortv p0 p -> history_ok P sources ∅ ds -> mirrors (p_src P p) (after ds) -> target_ok P target (p_tgt P p) ->
  order_ok o -> (forall acc B, inputs_of P (after ds) (map gvk_kind sources) acc -> xs g acc B -> functional P B) ->
  (forall p' out, sync P sortv o p = (p', Some out) ->
    exists acc B, inputs_of P (after ds) (map gvk_kind sources) acc /\ xs g acc B
      /\ shows P target B (apply_ops (held_plain (p_tgt P p)) out)
      /\ agree (p_tgt P p') (apply_ops (held_plain (p_tgt P p)) out)
      /\ p_src P p' = p_src P p
      /\ (fits P target B -> target_ok P target (p_tgt P p'))
      /\ (fits P target B -> shows P target B (held_plain (p_tgt P p)) -> out = [] /\ p_tgt P p' = p_tgt P p))
  /\ (Forall op_total ps -> (forall jev, join = Some jev -> jev_total jev) -> is_Some (sync P sortv o p).2).
Proof.
  intros Hex Hg Hs ND Hb Hok Hj Hp Hgr Hses HH HM HT Ho HF. set (kinds := map gvk_kind sources) in *.
  unfold pipe_new in Hp. apply bind_Some in Hp as (g1 & Hg1 & [= <-]). fold kinds in Hg1.
  assert (Hkn : kinds <> []) by (by destruct sources).
  destruct (basic_shape kinds join ps g1 Hg1 Hkn Hb) as [Hst Hsh].
  destruct (c16_available kinds join ps g1 Hg1 Hkn Hb) as (gs & Egs & _).
  assert (I0 : session_inv target sources g1 (Pipe P sources target g1 ∅ ∅ None)) by (split; auto).
  destruct (session_ok target sources g1 _ p Hst I0 Hses) as [I1 I2 I3 I4].
  assert (ES : match p_snap P p with Some g => Some g | None => to_snapshot_graph (p_graph P p) end = Some gs).
  { rewrite <-Egs. destruct I4 as [->|E]; [by apply same_shape_snapshot|]. by rewrite E, Egs. }
  destruct (convert_run_ok P sources ds ∅ ∅ (world_empty P _) mirrors_empty HH) as (src1 & zs1 & _ & _ & _ & Ww & _).
  change (foldl apply_event ∅ ds) with (after ds) in Ww.
  set (q := set_snap P p (Some gs)). set (tgt := p_tgt P p) in *.
  destruct (sync_inputs_ok (osub o 0) q sources (after ds)) as (acc & Ea & HI & HFd); auto using osub_ok.
  destruct (target_zset (osub o 2) target tgt Hex Hg) as (B0 & EB0 & W0 & F0 & S0 & D0); auto using osub_ok.
  assert (Wacc : map_Forall (fun _ z => zwf z) acc) by apply HFd.
  assert (A0 : agree tgt (held_plain tgt)).
  { intros i Hi. unfold held_plain. by rewrite bool_decide_eq_true_2. }
  unfold sync.
  rewrite ES. cbv zeta. fold q. rewrite Ea. cbn [mbind option_bind].
  change (p_tgt P q) with tgt. change (p_target P q) with (p_target P p). rewrite EB0, I2.
  assert (HX : forall y, (xp (osub o 1) gs acc).2 = Some y -> xs g acc y /\ zwf y /\ functional P y).
  { intros y Ey. destruct (xp (osub o 1) gs acc) as [gs' r] eqn:EX. simpl in Ey. subst r.
    destruct (@c16_snapshot_sound (json_docs_on P) sortv kinds join ps g g1 gs (osub o 1) acc gs' y) as [_ HS]; auto using osub_ok.
    split; [done|]. split; [by eapply exec_scratch_wf|by eapply HF]. }
  split.
  - intros p' out. destruct (xp (osub o 1) gs acc).2 as [y|] eqn:EX; cbn [mbind option_bind]; [|done]. destruct (HX y eq_refl) as (HS & Wy & Fy).
    destruct (@zsub_spec (json_docs_on P) (osub o 3) y B0 (osub_ok o 3 Ho) Wy W0) as (diff & Ed & Wd & Cd). rewrite Ed. cbn [mbind option_bind].
    destruct (convert_zset P (osub o 4) target diff) as [dl|] eqn:EC; [|done].
    destruct (reconcile P (osub o 5) tgt dl) as [tgt' r] eqn:ER. intros [= <- ->].
    exists acc, y. split; [done|]. split; [done|].
    destruct (target_step P target B0 y diff tgt (held_plain tgt) (osub o 4) (osub o 5) dl tgt' out) as [T1 T2]; auto using osub_ok.
    { intros k. rewrite (Cd k). lia. }
    split; [done|]. split; [done|]. split; [done|]. change (p_tgt P (set_tgt P q tgt')) with tgt'. split.
    + intros Hfit. destruct (step_total P target B0 y diff tgt (osub o 4) (osub o 5)) as (dl' & tgt2 & out2 & E1 & E2 & Hraw); auto using osub_ok.
      { intros k. rewrite (Cd k). lia. }
      assert (dl' = dl) as -> by congruence. clear E1 E2. intros k m Hk.
      assert (exists i, k = skey i.1 i.2 /\ plain i) as (i & -> & Hi).
      { destruct (reconcile_keys _ _ _ _ _ (osub_ok o 5 Ho) Hraw ER k m Hk) as [Hk'|(d & Hd & _ & ->)].
        - destruct (HT k m Hk') as (i & _ & -> & Hi & _). by exists i.
        - destruct (reconcile_ok P (osub o 5) tgt dl (osub_ok o 5 Ho) Hraw) as (t2 & o2 & E2 & _ & _ & _ & R4 & _).
          assert (o2 = out) as -> by congruence. exists (obj_id (d_obj d)). split; [done|]. by apply R4. }
      assert (HTi : apply_ops (held_plain tgt) out i = Some m). { rewrite <-(T2 i Hi). exact Hk. }
      apply T1 in HTi as (k & d & Hd & Hdi & ->). destruct (zwf_doc P _ _ _ Wy Hd) as [Hkd _]. exists i, d. destruct (Hfit k d i Hd Hdi) as [-> HU].
      split; [done|]. split; [exact Hi|].
      split; [by eapply (proj2 Hex)|]. split; [done|]. split; [done|]. split; [done|]. by exists k.
    + intros Hfit HSy.
      assert (DD : forall (k : string) d, docs y !! k = Some d <-> docs B0 !! k = Some d).
      { intros k d. split.
        - intros Hd. destruct (proj1 Fy k d Hd) as (_ & i & Hi & Hpi). destruct (Hfit k d i Hd Hi) as [Ee _].
          apply D0. split; [by apply (zwf_doc P _ _ _ Wy Hd)|]. exists (skey i.1 i.2).
          assert (HX2 : held_plain tgt i = Some d). { apply HSy. exists k, d. by rewrite Ee. }
          unfold held_plain in HX2. by rewrite bool_decide_eq_true_2 in HX2.
        - intros [Hk (k' & Hk')]%D0. destruct (HT k' d Hk') as (i & d' & -> & Hpi & _).
          assert (HX2 : held_plain tgt i = Some d). { unfold held_plain. by rewrite bool_decide_eq_true_2. }
          apply HSy in HX2 as (k2 & d2 & Hd2 & Hi2 & E2). destruct (Hfit k2 d2 i Hd2 Hi2) as [Ee _]. rewrite Ee in E2. subst d2.
          destruct (zwf_doc P _ _ _ Wy Hd2) as [Hk2 _]. assert (k2 = k) as ->; [|done].
          pose proof (eq_trans (eq_sym Hk2) Hk) as EE. by injection EE. }
      assert (HZ : forall k : string, zcount diff k = 0).
      { intros k. rewrite (Cd k). destruct (docs y !! k) as [d|] eqn:E.
        - pose proof (proj1 Fy k d E) as [-> _]. apply DD in E. pose proof (proj1 F0 k d E) as [-> _]. done.
        - assert (zcount y k = 0) as ->.
          { destruct (decide (zcount y k = 0)) as [|Hn]; [done|]. destruct (zwf_nz P _ _ Wy Hn) as [d Hd]. pose proof (eq_trans (eq_sym E) Hd). done. }
          assert (zcount B0 k = 0) as ->; [|done].
          destruct (decide (zcount B0 k = 0)) as [|Hn]; [done|]. destruct (zwf_nz P _ _ W0 Hn) as [d Hd]. apply DD in Hd. pose proof (eq_trans (eq_sym E) Hd). done. }
      assert (dl = []) as ->.
      { destruct dl as [|x dl]; [done|]. exfalso. destruct (proj1 (convert_zset_in P target (osub o 4) diff _ (osub_ok o 4 Ho) Wd EC x)) as (k & d & i & [Hd _] & _); [by left|].
        destruct (zwf_doc P _ _ _ Wd Hd) as [_ Hn]. apply Hn, HZ. }
      assert (OE : forall A n, (osub o 5) A n ∅ = []).
      { intros A n. apply Permutation_nil. symmetry. assert (HP : Permutation (osub o 5 A n (∅ : gmap string A)) (map_to_list ∅)) by (by apply (osub_ok o 5 Ho)).
        by rewrite map_to_list_empty in HP. }
      unfold reconcile in ER. simpl in ER. rewrite !OE in ER. simpl in ER. rewrite !OE in ER. by injection ER as <- <-.
  - intros Ht Hjt.
    destruct (@c16_total (json_docs_on P) sortv kinds join ps g1 gs (osub o 1) acc) as (y & EX); auto using osub_ok.
    rewrite EX in HX |- *. cbn [snd mbind option_bind] in *. destruct (HX y eq_refl) as (HS & Wy & Fy).
    destruct (@zsub_spec (json_docs_on P) (osub o 3) y B0 (osub_ok o 3 Ho) Wy W0) as (diff & Ed & Wd & Cd). rewrite Ed. cbn [mbind option_bind].
    destruct (step_total P target B0 y diff tgt (osub o 4) (osub o 5)) as (dl & tgt' & out & E1 & E2 & _); auto using osub_ok.
    { intros k. rewrite (Cd k). lia. }
    rewrite E1, E2. by eexists.
Qed.

Lemma shows_zeq target (B1 B2 : @zset (json_docs_on P)) T : exact P -> zwf B1 -> zwf B2 -> zeq B1 B2 ->
  shows P target B1 T -> shows P target B2 T.
Proof.
  intros [Hex _] W1 W2 E S1 i m.
  assert (D : forall (k : string) d, docs B1 !! k = Some d <-> docs B2 !! k = Some d).
  { intros k d. specialize (E k). split; intros Hd.
    - destruct (zwf_doc P _ _ _ W1 Hd) as [Hk Hn]. destruct (zwf_nz P B2 k W2) as [d' Hd']; [lia|].
      destruct (zwf_doc P _ _ _ W2 Hd') as [Hk' _]. by rewrite (Hex d d' k Hk Hk').
    - destruct (zwf_doc P _ _ _ W2 Hd) as [Hk Hn]. destruct (zwf_nz P B1 k W1) as [d' Hd']; [lia|].
      destruct (zwf_doc P _ _ _ W1 Hd') as [Hk' _]. by rewrite (Hex d d' k Hk Hk'). }
  rewrite (S1 i m). by setoid_rewrite D.
Qed.

(** ** A second Sync *)
Lemma c21_again target sources join ps g p0 p o1 o2 ds p1 p2 out1 out2 :
  exact P -> gvk_ok target -> sources <> [] -> NoDup (map gvk_kind sources) ->
  forallb basic_op ps = true -> Forall op_ok ps -> (forall jev, join = Some jev -> jev_ok jev) ->
  pipe_new P target sources join ps = Some p0 -> pipeline_graph (map gvk_kind sources) join ps = Some g ->
  session P sortv p0 p -> history_ok P sources ∅ ds -> mirrors (p_src P p) (after ds) -> target_ok P target (p_tgt P p) ->
  order_ok o1 -> order_ok o2 ->
  (forall acc B, inputs_of P (after ds) (map gvk_kind sources) acc -> xs g acc B -> functional P B /\ fits P target B) ->
  sync P sortv o1 p = (p1, Some out1) -> sync P sortv o2 p1 = (p2, Some out2) ->
  out2 = [] /\ p_tgt P p2 = p_tgt P p1.
Proof.
  intros Hex Hg Hs ND Hb Hok Hj Hp Hgr Hses HH HM HT Ho1 Ho2 HF E1 E2.
  destruct (c21_core target sources join ps g p0 p o1 ds) as [C1 _]; auto; [by intros; eapply HF|].
  destruct (C1 p1 out1 E1) as (acc1 & B1 & I1 & S1 & Sh1 & A1 & Esrc & Hok1 & _). clear C1.
  destruct (HF _ _ I1 S1) as [F1 Fit1]. specialize (Hok1 Fit1).
  assert (Hses1 : session P sortv p0 p1). { change p1 with (p1, Some out1).1. rewrite <-E1. by constructor. }
  destruct (c21_core target sources join ps g p0 p1 o2 ds) as [C2 _]; auto; [by rewrite Esrc|by intros; eapply HF|].
  destruct (C2 p2 out2 E2) as (acc2 & B2 & I2 & S2 & Sh2 & A2 & _ & _ & Hnil). clear C2.
  destruct (HF _ _ I2 S2) as [F2 Fit2]. apply Hnil; [done|].
  assert (W1 : zwf B1) by (by eapply exec_scratch_wf). assert (W2 : zwf B2) by (by eapply exec_scratch_wf).
  assert (Eq : zeq B1 B2).
  { destruct (basic_user ps Hb) as (Hu & _). eapply (exec_scratch_unique (DD := json_docs_on P) sortv (map gvk_kind sources) join ps g acc1 acc2); eauto.
    - assert (HD : Forall (@op_det (json_docs_on P) sortv) ps) by (by apply basic_det). eapply Forall_impl; [exact HD|]. intros. by apply op_det_posdet.
    - intros kd Hk. destruct (I1 kd Hk) as (a1 & L1 & Wa1 & Ca1), (I2 kd Hk) as (a2 & L2 & Wa2 & Ca2). exists a1, a2. split_and!; try done.
      + intros k. rewrite (Ca1 k). apply occ_nonneg.
      + intros k. rewrite (Ca2 k). apply occ_nonneg.
      + intros k. rewrite (Ca1 k), (Ca2 k). done. }
  assert (Sh1' : shows P target B2 (apply_ops (held_plain (p_tgt P p)) out1)) by (by eapply (shows_zeq target B1 B2)).
  intros i m. rewrite <-(Sh1' i m). unfold held_plain at 1. case_bool_decide as Hpi.
  - by rewrite (A1 i Hpi).
  - split; [done|]. intros Hm. exfalso. apply Sh1' in Hm as (k & d & Hd & Hi & _). destruct (proj1 F2 k d Hd) as (_ & i' & Hi' & Hp'). by assert (i' = i) as -> by congruence.
Qed.
End sync.
