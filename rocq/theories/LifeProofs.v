(** Proofs about crashes and restarts. *)
From Verif Require Import LifeModel ZSetSpec OpsSpec GatherSpec ExecSpec JsonSpec CleanSpec PipelineSpec GroupSpec ValueSpec ViewSpec WriterSpec NetSpec LifeSpec.
From Verif Require Import JsonProofs CleanProofs ReconcileProofs ObjProofs ConvertProofs TargetProofs PipeProofs PipeProofs2 PipeProofs4 RetryProofs OptProofs ViewProofs ViewProofs2.
From Verif Require Import NetProofs2 NetProofs3 NetProofs4 NetProofs5 NetProofs6 NetProofs7 PropsWriter.

Section life.
Context {FF : FloatFmt}.
#[local] Hint Extern 0 Docs => exact (json_docs_on clean) : typeclass_instances.
Variable sortv : list json -> list json.
Variable hash : string -> string.
Variable has_status unconditional : gvk -> bool.
Variable lister : store -> list jobj.
Variable o : nat -> order.
Variable cs : list config.
Variable ps : list (pipe clean).
Notation node := (node clean).
Notation net := (net clean).
Notation site := (site clean).
Hypothesis Hex : exact clean.
Hypothesis Ho : forall k, order_ok (o k).
Hypothesis Hl : lists_all lister.
Hypothesis Hh : forall t, hash t <> EmptyString /\ utf8_ok (hash t) = true.
Hypothesis Hcs : Forall2 config_ok cs ps.
Hypothesis Hap : apart_all cs.
Lemma Hap' : apart_targets cs.
Proof. intros j k c c' H1 H2 _. by apply Hap. Qed.
Notation nstep := (net_step clean sortv hash lister o).
Notation step := (l_step clean sortv hash has_status unconditional lister o ps).
Notation run := (l_run clean sortv hash has_status unconditional lister o ps).
Notation inv := (inv sortv hash o cs ps).
Notation all_tidy := (all_tidy sortv cs).

(** *** Starting again *)
Lemma inv_reborn outer : (forall x, fine x (cache_of outer x)) -> inv (Net clean outer ∅ (map (node0 clean) ps)).
Proof.
  intros Fo. assert (E : forall k n, map (node0 clean) ps !! k = Some n -> exists c p0, cs !! k = Some c /\ ps !! k = Some p0 /\ n = node0 clean p0).
  { intros k n. rewrite list_lookup_fmap. destruct (ps !! k) as [p|] eqn:Ep; [|done]. intros [= <-]. destruct (Forall2_lookup_r _ _ _ _ _ Hcs Ep) as (c & Hc & _). eauto. }
  split; cbn [t_nodes t_outer t_views].
  - rewrite map_length. symmetry. by eapply Forall2_length.
  - intros k n Hk. destruct (E k n Hk) as (c & p0 & Hc & Hp & ->). exists c, p0. split_and!; [done..|]. apply node_new.
  - done.
  - exists ∅. split; [apply sim_empty|]. intros k m. by rewrite lookup_empty.
  - intros k n c Hk Hc V i Pi. destruct (E k n Hk) as (c' & p0 & _ & _ & ->). cbn. unfold no_objects. rewrite held_plain_in by done. unfold cache_of. by rewrite lookup_empty.
Qed.
Lemma outer_step s a s' : act_fit a -> (forall x, fine x (cache_of (t_outer clean s) x)) -> nstep s a = Some s' -> forall x, fine x (cache_of (t_outer clean s') x).
Proof.
  intros Fa F E. destruct s as [outer views nodes]. cbn [t_outer] in F. destruct a as [m|x ns name|j|j x|j]; cbn [net_step] in E.
  - destruct (made _ _ _); [done|]. injection E as <-. cbn [t_outer]. intros x. apply fine_put; [done|]. destruct Fa as (W & C & P & Nm). done.
  - destruct (made _ _ _); [done|]. apply bind_Some in E as (m & _ & [= <-]). cbn [t_outer]. intros y. by apply fine_drop.
  - apply bind_Some in E as (n & _ & E). destruct (n_on clean n); [done|]. by injection E as <-.
  - apply bind_Some in E as (n & _ & E). destruct (n_pending clean n); [|done]. destruct (n_queue clean n x); [done|]. destruct (evaluate _ _ _ _ _) as [p [ops|]]; [|done]. by injection E as <-.
  - apply bind_Some in E as (n & _ & E). destruct (n_pending clean n); [done|]. destruct (is_view_kind _); [|by injection E as <-]. destruct (view_write _ _ _ _) as [[c es] []]; try done. by injection E as <-.
Qed.

(** *** A write to a native target *)
Lemma emitted_native x d : gvk_ok x -> is_view_kind x = false -> emitted x d -> WriterSpec.target_ok x (d_obj d).
Proof.
  intros G V (_ & a & i & C & Hi & P & E). rewrite E. assert (W := clean_owf _ C). destruct (encapsulate_ok x a i W G Hi) as (I & _ & W' & _ & _). destruct (doc_id_meta _ _ Hi) as (_ & _ & N2).
  unfold WriterSpec.target_ok. rewrite I, V. assert (I2 : get_name (encapsulate x a i.1 i.2) = i.2) by exact (f_equal snd I). by rewrite I2.
Qed.
(** What the last operation asks for *)
Definition follows (x : gvk) (base : cluster) (ds : list delta) (c : cluster) : Prop := forall i,
  match last_for i ds with
  | None => stored c (x, i) = stored base (x, i)
  | Some d => if decide (d_type d = Deleted) then stored c (x, i) = None else exists m old, stored c (x, i) = Some m /\ holds has_status x (d_obj d) old m
  end.
Lemma write_step x d c : cluster_fit hash c -> gvk_ok x -> is_view_kind x = false -> emitted x d ->
  exists c', target_write hash has_status unconditional Updater x c [] d None = (c', None) /\ cluster_fit hash (synced c')
    /\ (forall j, j.1 <> x -> proper j -> stored (synced c') j = stored c j)
    /\ forall base ds, follows x base ds c -> follows x base (ds ++ [d]) (synced c').
Proof.
  intros [Ok Up] G V Em. assert (Tm := emitted_native x d G V Em). set (k := (x, obj_id (d_obj d))).
  assert (Pr : forall i, proper (x, i)) by (intros i; unfold proper; cbn [fst]; congruence).
  assert (X : exists c', target_write hash has_status unconditional Updater x c [] d None = (c', None) /\ cluster_ok hash c' /\ frame c c' k
    /\ if decide (d_type d = Deleted) then stored c' k = None else exists m old, stored c' k = Some m /\ holds has_status x (d_obj d) old m).
  { destruct (proj1 Em) as [Ty|Ty].
    - destruct (C33_upsert_partial hash has_status unconditional x c d None Ok Tm) as (c' & m & H1 & H2 & H3 & H4 & H5); [rewrite Ty; unfold upsert; tauto|intros _; by apply Up|].
      exists c'. split_and!; [done..|]. rewrite decide_False by (by rewrite Ty). eauto.
    - destruct (C33_delete hash has_status unconditional x c d None Ok Tm Ty) as (c' & H1 & H2 & H3 & H4). exists c'. split_and!; [done..|]. by rewrite decide_True. }
  destruct X as (c' & H1 & H2 & H3 & H4). exists c'. split; [exact H1|]. split; [by split|]. split.
  - intros j Hj Pj. change (stored (synced c') j) with (stored c' j). apply H3; [|done]. intros ->. by apply Hj.
  - intros base ds F i. rewrite last_for_snoc. change (stored (synced c') (x, i)) with (stored c' (x, i)). destruct (decide (obj_id (d_obj d) = i)) as [E|E]; [rewrite <- E; exact H4|].
    specialize (F i). rewrite (H3 (x, i)); [done| |apply Pr]. intros Ek. apply E. symmetry. exact (f_equal snd Ek).
Qed.
Lemma applied_last ds i : apply_ops no_objects ds i = match last_for i ds with None => None | Some d => if decide (d_type d = Deleted) then None else Some (d_obj d) end.
Proof.
  induction ds as [|d ds IH] using rev_ind; [done|]. rewrite last_for_snoc. unfold apply_ops. rewrite foldl_app. cbn [foldl]. unfold apply_op at 1.
  destruct (decide (obj_id (d_obj d) = i)) as [<-|N]; [rewrite decide_True by done; by destruct (d_type d)|]. rewrite decide_False by (by intros ->). exact IH.
Qed.

(** *** One life *)
Record linv (base : cluster) (w : site) : Prop := {
  l_net : inv (at_net clean w);
  l_fit : cluster_fit hash (at_cluster clean w);
  l_done : forall k n c, t_nodes clean (at_net clean w) !! k = Some n -> cs !! k = Some c -> is_view_kind (c_target c) = false -> follows (c_target c) base (n_written clean n) (at_cluster clean w);
  l_rest : forall j, proper j -> (forall c, c ∈ cs -> c_target c = j.1 -> is_view_kind (c_target c) = true) -> stored (at_cluster clean w) j = stored base j }.

Lemma linv_start outer c : (forall x, fine x (cache_of outer x)) -> cluster_fit hash c -> linv c (Site clean (Net clean outer ∅ (map (node0 clean) ps)) c).
Proof.
  intros Fo Fc. split; cbn [at_net at_cluster]; [by apply inv_reborn|done| |done].
  intros k n c0. cbn [t_nodes]. rewrite list_lookup_fmap. destruct (ps !! k); [|done]. intros [= <-] _ _ i. done.
Qed.
Lemma step_written s a s' k n' : nstep s a = Some s' -> t_nodes clean s' !! k = Some n' ->
  exists n, t_nodes clean s !! k = Some n /\ (n_written clean n' = n_written clean n \/ a = NWrite k /\ exists d ds, n_pending clean n = d :: ds /\ n_written clean n' = n_written clean n ++ [d]).
Proof.
  intros E Hn'. destruct s as [outer views nodes]. destruct a as [m|x ns name|j|j x|j]; cbn [net_step t_nodes] in *.
  - destruct (made _ _ _); [done|]. injection E as <-. cbn [t_nodes] in Hn'. apply told_written in Hn' as (n & Hn & -> & _). eauto.
  - destruct (made _ _ _); [done|]. apply bind_Some in E as (m & _ & [= <-]). cbn [t_nodes] in Hn'. apply told_written in Hn' as (n & Hn & -> & _). eauto.
  - apply bind_Some in E as (n & Hj & E). destruct (n_on clean n); [done|]. injection E as <-. cbn [t_nodes] in Hn'. destruct (decide (j = k)) as [->|N]; [|rewrite list_lookup_insert_ne in Hn' by done; eauto].
    rewrite list_lookup_insert in Hn' by (by eapply lookup_lt_Some). injection Hn' as <-. eauto.
  - apply bind_Some in E as (n & Hj & E). destruct (n_pending clean n); [|done]. destruct (n_queue clean n x); [done|]. destruct (evaluate _ _ _ _ _) as [p [ops|]]; [|done]. injection E as <-.
    cbn [t_nodes] in Hn'. destruct (decide (j = k)) as [->|N]; [|rewrite list_lookup_insert_ne in Hn' by done; eauto]. rewrite list_lookup_insert in Hn' by (by eapply lookup_lt_Some). injection Hn' as <-. eauto.
  - apply bind_Some in E as (n & Hj & E). destruct (n_pending clean n) as [|d ds] eqn:Pe; [done|].
    assert (X : forall m, <[j := Node clean (n_pipe clean n) (n_on clean n) (n_queue clean n) (n_done clean n) ds (n_written clean n ++ [d])]> nodes !! k = Some m ->
      exists n0, nodes !! k = Some n0 /\ (n_written clean m = n_written clean n0 \/ NWrite j = NWrite k /\ exists d ds, n_pending clean n0 = d :: ds /\ n_written clean m = n_written clean n0 ++ [d])).
    { intros m. destruct (decide (j = k)) as [->|N]; [|rewrite list_lookup_insert_ne by done; eauto]. rewrite list_lookup_insert by (by eapply lookup_lt_Some). intros [= <-]. exists n. split; [done|]. right. split; [done|]. exists d, ds. done. }
    destruct (is_view_kind _).
    + destruct (view_write _ _ _ _) as [[c es] []]; try done. injection E as <-. cbn [t_nodes] in Hn'. apply told_written in Hn' as (n0 & Hn0 & -> & _). by apply X.
    + injection E as <-. by apply X.
Qed.
Lemma pending_emitted s k n d ds : inv s -> all_tidy s -> t_nodes clean s !! k = Some n -> n_pending clean n = d :: ds ->
  exists c p0, cs !! k = Some c /\ config_ok c p0 /\ p_target clean (n_pipe clean n) = c_target c /\ emitted (c_target c) d.
Proof.
  intros I T Hn Pe. destruct (i_node _ _ _ _ _ s I k n Hn) as (c & p0 & Hc & Hp & No). assert (Cf := conf _ _ Hcs _ _ _ Hc Hp). exists c, p0. split_and!; [done..| |].
  - by destruct (node_kinds sortv (o k) c p0 (Ho k) Cf _ n No) as [Et _].
  - assert (X := node_emitted sortv (o k) c p0 (Ho k) Cf _ n Hex No (T k c n Hc Hn)). rewrite Pe in X. apply Forall_app in X as [_ X]. by apply Forall_cons in X as [X _].
Qed.
Lemma linv_step base w a w' : act_fit a -> all_tidy (at_net clean w) -> linv base w -> step w (LDo a) = Some w' -> linv base w'.
Proof.
  intros Fa T L E. destruct w as [s c]. cbn [l_step at_net at_cluster] in *. apply bind_Some in E as (s' & Es & E).
  assert (I : inv s) by exact (l_net _ _ L). assert (I' : inv s') by (eapply (inv_step sortv hash lister o cs ps); eauto using Hap').
  assert (Same : (forall k, a = NWrite k -> exists n, t_nodes clean s !! k = Some n /\ is_view_kind (p_target clean (n_pipe clean n)) = true) -> w' = Site clean s' c -> linv base w').
  { intros Hw ->. destruct L as [_ L2 L3 L4]. cbn [at_net at_cluster] in *. split; cbn [at_net at_cluster]; [done..| |done].
    intros k n' c0 Hn' Hc V. destruct (step_written s a s' k n' Es Hn') as (n & Hn & [->|(-> & d & ds & Pe & _)]); [by eapply L3|]. exfalso.
    destruct (Hw k eq_refl) as (n0 & Hn0 & Vn). rewrite Hn in Hn0. injection Hn0 as <-. destruct (pending_emitted s k n d ds I T Hn Pe) as (c1 & p0 & Hc1 & _ & Et & _). rewrite Hc in Hc1. injection Hc1 as <-. congruence. }
  destruct a as [m|x ns name|j|j x|j]; try (injection E as <-; by apply Same).
  apply bind_Some in E as (n & Hn & E). apply bind_Some in E as (d & Hd & E). destruct (n_pending clean n) as [|d0 ds] eqn:Pe; [done|]. injection Hd as ->.
  destruct (is_view_kind (p_target clean (n_pipe clean n))) eqn:V.
  { injection E as <-. apply Same; [|done]. intros k [= <-]. eauto. }
  destruct (pending_emitted s j n d ds I T Hn Pe) as (c0 & p0 & Hc & Cf & Et & Em). rewrite Et in V, E.
  destruct L as [_ L2 L3 L4]. cbn [at_net at_cluster] in *. destruct (write_step (c_target c0) d c L2 (proj1 Cf) V Em) as (c' & H1 & H2 & H3 & H4). rewrite H1 in E. injection E as <-.
  split; cbn [at_net at_cluster]; [done..| |].
  - intros k n' c1 Hn' Hc1 V1. destruct (step_written s _ s' k n' Es Hn') as (n1 & Hn1 & [Ew|(Ea & d1 & ds1 & Pe1 & Ew)]).
    + destruct (decide (j = k)) as [->|N].
      * exfalso. rewrite Hn in Hn1. injection Hn1 as <-. destruct s as [outer views nodes]. cbn [net_step t_nodes] in *. rewrite Hn in Es. cbn [mbind option_bind] in Es. rewrite Pe, Et, V in Es. injection Es as <-.
        cbn [t_nodes] in Hn'. rewrite list_lookup_insert in Hn' by (by eapply lookup_lt_Some). injection Hn' as <-. cbn [n_written] in Ew. apply (f_equal length) in Ew. rewrite app_length in Ew. cbn in Ew. lia.
      * rewrite Ew. intros i. assert (Ne : c_target c1 <> c_target c0). { intros Ec. apply N. symmetry. by eapply (Hap k j c1 c0). }
        specialize (L3 k n1 c1 Hn1 Hc1 V1 i). rewrite (H3 (c_target c1, i)); [done|done|]. unfold proper. cbn [fst]. congruence.
    + injection Ea as <-. rewrite Hn in Hn1. injection Hn1 as <-. rewrite Pe in Pe1. injection Pe1 as <- <-. rewrite Hc in Hc1. injection Hc1 as <-. rewrite Ew. apply H4. by eapply L3.
  - intros j0 Pj Hj. rewrite (H3 j0); [by apply L4| |done]. intros E. rewrite (Hj c0) in V; [done|by eapply elem_of_list_lookup_2|done].
Qed.

(** *** All lives *)
Lemma run_snoc l a : forall w, run w (l ++ [a]) = (w1 ← run w l; step w1 a).
Proof.
  induction l as [|b l IH]; intros w; cbn [app l_run mbind option_bind]; [by destruct (step w a)|]. destruct (step w b) as [w1|]; [|done]. cbn [mbind option_bind]. apply IH.
Qed.
Lemma lives c0 l : forall w, cluster_fit hash c0 -> Forall (lact_fit hash) l -> run (Site clean (net0 clean ps) c0) l = Some w ->
  (forall x, fine x (cache_of (t_outer clean (at_net clean w)) x)) /\ (all_tidy (at_net clean w) -> linv (last_start c0 l) w).
Proof.
  induction l as [|a l IH] using rev_ind; intros w F0 F E.
  - injection E as <-. assert (Fo : forall x, fine x (cache_of ∅ x)) by (intros x k m; unfold cache_of; by rewrite lookup_empty). split; [exact Fo|]. intros _. by apply linv_start.
  - apply Forall_app in F as [F Fa]. apply Forall_cons in Fa as [Fa _]. rewrite run_snoc in E. apply bind_Some in E as (w1 & E1 & E). destruct (IH w1 F0 F E1) as [H1 H2].
    unfold last_start. rewrite foldl_app. cbn [foldl]. destruct a as [a|c].
    + split.
      * cbn [l_step] in E. apply bind_Some in E as (s & Es & E). intros x. assert (X := outer_step _ _ _ Fa H1 Es x). destruct a; try (by injection E as <-).
        apply bind_Some in E as (n & _ & E). apply bind_Some in E as (d & _ & E). destruct (is_view_kind _); [by injection E as <-|]. destruct (target_write _ _ _ _ _ _ _ _ _) as [c []]; [done|]. by injection E as <-.
      * intros T. assert (T1 : all_tidy (at_net clean w1)).
        { cbn [l_step] in E. apply bind_Some in E as (s & Es & E). eapply (tidy_back sortv hash lister o cs); [exact Es|]. destruct a; try (by injection E as <-).
          apply bind_Some in E as (n & _ & E). apply bind_Some in E as (d & _ & E). destruct (is_view_kind _); [by injection E as <-|]. destruct (target_write _ _ _ _ _ _ _ _ _) as [c []]; [done|]. by injection E as <-. }
        eapply linv_step; eauto.
    + injection E as <-. cbn [at_net t_outer]. split; [done|]. intros _. by apply linv_start.
Qed.

(** *** Coming to rest *)
Section rest.
Hypothesis Hun : Forall (unique_names sortv) cs.
Lemma lives_unique c0 l : forall w, cluster_fit hash c0 -> Forall (lact_fit hash) l -> run (Site clean (net0 clean ps) c0) l = Some w -> linv (last_start c0 l) w.
Proof.
  induction l as [|a l IH] using rev_ind; intros w F0 F E.
  - injection E as <-. apply linv_start; [|done]. intros x k m. unfold cache_of. by rewrite lookup_empty.
  - assert (Fo := proj1 (lives c0 (l ++ [a]) w F0 F E)). apply Forall_app in F as [F Fa]. apply Forall_cons in Fa as [Fa _]. rewrite run_snoc in E. apply bind_Some in E as (w1 & E1 & E).
    assert (L := IH w1 F0 F E1). unfold last_start. rewrite foldl_app. cbn [foldl]. destruct a as [a|c].
    + eapply linv_step; eauto. apply (inv_tidy sortv hash o cs ps Hun), (l_net _ _ L).
    + injection E as <-. by apply linv_start.
Qed.
Lemma linv_calms s : settles nstep s -> forall base w, at_net clean w = s -> linv base w -> calms step w.
Proof.
  induction 1 as [s Pr _ IH]. intros base w <- L. assert (T := inv_tidy sortv hash o cs ps Hun _ (l_net _ _ L)). constructor.
  - destruct Pr as [Q|(a & s' & Oa & Es)]; [by left|]. right. exists a. cbn [l_step]. rewrite Es. cbn [mbind option_bind].
    destruct a as [m|x ns name|j|j x|j]; try done; [eauto|]. assert (E := Es). destruct w as [s c]. cbn [at_net at_cluster] in *. destruct s as [outer views nodes]. cbn [net_step t_nodes] in E |- *.
    apply bind_Some in E as (n & Hn & E). rewrite Hn. cbn [mbind option_bind]. destruct (n_pending clean n) as [|d ds] eqn:Pe; [done|]. cbn [head mbind option_bind].
    destruct (is_view_kind _) eqn:V; [eauto|]. destruct (pending_emitted _ j n d ds (l_net _ _ L) T Hn Pe) as (c0 & p0 & Hc & Cf & Et & Em). rewrite Et in V |- *.
    destruct (write_step (c_target c0) d c (l_fit _ _ L) (proj1 Cf) V Em) as (c' & -> & _). eauto.
  - intros a w' Oa E. assert (L' : linv base w'). { eapply linv_step; eauto. by destruct a. }
    assert (E0 := E). cbn [l_step] in E. apply bind_Some in E as (s' & Es & E). apply (IH a s' Oa Es base w'); [|done].
    destruct a; try (by injection E as <-). apply bind_Some in E as (n & _ & E). apply bind_Some in E as (d & _ & E). destruct (is_view_kind _); [by injection E as <-|]. destruct (target_write _ _ _ _ _ _ _ _ _) as [c []]; [done|]. by injection E as <-.
Qed.
End rest.
End life.
