(** Proofs about the view cache: listing, histories and handlers (C29, C30, C32). *)
From Verif Require Import ViewModel ZSetSpec OpsSpec GatherSpec ExecSpec JsonSpec CleanSpec PipelineSpec GroupSpec ValueSpec ViewSpec.
From Verif Require Import JsonProofs CleanProofs ReconcileProofs ObjProofs ValueProofs GroupProofs ViewProofs.

Section view.
Variable hash : string -> string.
Variable lister : store -> list jobj.
Hypothesis Hl : lists_all lister.
Notation stamp := (stamp hash).
Notation sim := (sim hash).

Lemma lister_in s m : In m (lister s) <-> exists k, s !! k = Some m.
Proof.
  rewrite (Hl s), in_map_iff. split.
  - intros ([k m'] & <- & Hin). exists k. by apply elem_of_map_to_list, elem_of_list_In.
  - intros (k & E). exists (k, m). split; [done|]. by apply elem_of_list_In, elem_of_map_to_list.
Qed.
Lemma lister_keys c w x : sim c w -> NoDup (map store_key (lister (cache_of c x))).
Proof.
  intros H. assert (P : Permutation (map store_key (lister (cache_of c x))) (map fst (map_to_list (cache_of c x)))).
  { rewrite (Hl _), map_map. apply Permutation_refl'. apply map_ext_in. intros [k m] Hin. simpl.
    apply elem_of_list_In, elem_of_map_to_list in Hin. by destruct (sim_c _ _ _ H _ _ _ Hin) as [[] _]. }
  rewrite P. apply NoDup_fst_map_to_list.
Qed.

(** ** List *)
Lemma object_list_gvk x : has_suffix "List" (gvk_kind x) = false -> object_gvk (list_gvk x) = x.
Proof.
  intros H. unfold list_gvk, is_object_kind. rewrite H. cbn [negb]. rewrite andb_true_r. destruct (is_view_kind x) eqn:V.
  - unfold object_gvk. unfold is_view_kind in *. cbn [gvk_group gvk_version gvk_kind]. rewrite V. cbn [andb].
    rewrite has_suffix_app. unfold trim_suffix. rewrite has_suffix_app, prefix_of_app. by destruct x.
  - unfold object_gvk. by rewrite V.
Qed.
Lemma vc_list_in c w x s m : sim c w -> In m (vc_list lister c x s) <-> w !! source_id m = Some m /\ get_gvk m = object_gvk x /\ selects s m = true.
Proof.
  intros H. unfold vc_list. rewrite in_map_iff. split.
  - intros (m' & E & Hin). apply filter_In in Hin as [Hin Hs]. apply lister_in in Hin as (k & Hk).
    destruct (sim_c _ _ _ H _ _ _ Hk) as [Ho Hw]. rewrite (so_copy _ _ _ _ Ho) in E. subst. by destruct Ho.
  - intros (Hw & Hg & Hs). destruct (sim_w _ _ _ H _ _ _ Hw) as [Hk _]. destruct (sim_c _ _ _ H _ _ _ Hk) as [Ho _].
    exists m. split; [by apply so_copy in Ho|]. apply filter_In. split; [|done]. apply lister_in. rewrite <- Hg. eauto.
Qed.
Lemma vc_list_map c w x s : sim c w -> vc_list lister c x s = List.filter (selects s) (lister (cache_of c (object_gvk x))).
Proof.
  intros H. unfold vc_list. rewrite <- (map_id (List.filter _ _)) at 2. apply map_ext_in. intros m Hin. apply filter_In in Hin as [Hin _].
  apply lister_in in Hin as (k & Hk). destruct (sim_c _ _ _ H _ _ _ Hk) as [Ho _]. by apply so_copy in Ho.
Qed.
Lemma map_filter_nodup {A B} (f : A -> B) (p : A -> bool) l : NoDup (map f l) -> NoDup (map f (List.filter p l)).
Proof.
  induction l as [|a l IH]; [done|]. cbn [List.filter map]. intros [N1 N2]%NoDup_cons. destruct (p a); [|by apply IH]. cbn [map]. constructor; [|by apply IH].
  intros E. apply N1. apply elem_of_list_In, in_map_iff in E as (y & E & Hin). apply filter_In in Hin as [Hin _]. apply elem_of_list_In, in_map_iff. eauto.
Qed.
Lemma vc_list_keys c w x s : sim c w -> NoDup (map store_key (vc_list lister c x s)).
Proof.
  intros H. rewrite (vc_list_map c w) by done. apply map_filter_nodup. by eapply lister_keys.
Qed.
Lemma vc_list_ids c w x s : sim c w -> NoDup (map obj_id (vc_list lister c x s)).
Proof.
  intros H. assert (N := vc_list_keys c w x s H). set (l := vc_list lister c x s) in *. clearbody l. induction l as [|m l IH]; [constructor|].
  cbn [map] in *. apply NoDup_cons in N as [N1 N2]. constructor; [|by apply IH]. intros E. apply N1. apply elem_of_list_In, in_map_iff in E as (m' & E & Hin).
  apply elem_of_list_In, in_map_iff. exists m'. split; [|done]. by rewrite !store_key_skey, E.
Qed.

(** ** DeleteAllOf *)
Lemma delete_items_sim x l : forall c w, sim c w -> (forall m, In m l -> cache_of c x !! store_key m = Some m) -> NoDup (map store_key l) ->
  follows hash w (delete_items c l) (foldl (fun w m => delete (source_id m) w) w l, VOk).
Proof.
  induction l as [|m l IH]; intros c w H Hin N; [by apply follows_same|]. cbn [delete_items foldl map] in *. apply NoDup_cons in N as [N1 N2].
  assert (Hm := Hin m (or_introl eq_refl)). destruct (sim_c _ _ _ H _ _ _ Hm) as [Ho Hw]. 
  assert (D := vc_delete_sim hash c w m H (so_plain _ _ _ _ Ho)). unfold vc_delete in *. cbn [ideal_step] in D.
  assert (Eg := so_gvk _ _ _ _ Ho). rewrite Eg in *. rewrite (so_view _ _ _ _ Ho), Hw in D. rewrite (so_view _ _ _ _ Ho). rewrite Hm in *.
  destruct D as (D1 & _ & D2). cbn [fst snd] in *.
  destruct (IH (drop_key c x (store_key m)) (delete (source_id m) w)) as (I1 & I2 & I3); [done| |done|].
  { intros m' Hm'. rewrite cache_drop, decide_True by done. rewrite lookup_delete_ne; [apply Hin; by right|]. intros E. apply N1. rewrite E.
    apply elem_of_list_In, in_map_iff. eauto. }
  destruct (delete_items (drop_key c x (store_key m)) l) as [[c2 es2] r2]. cbn [fst snd] in *. subst. split_and!; [done..|].
  by eapply (tells_app w [_]).
Qed.
Lemma foldl_delete (l : list jobj) : forall (w : world) y,
  foldl (fun w m => delete (source_id m) w) w l !! y = if decide (y ∈ map source_id l) then None else w !! y.
Proof.
  induction l as [|m l IH]; intros w y; [done|]. cbn [foldl map]. rewrite IH. destruct (decide (y ∈ map source_id l)) as [E|E].
  - rewrite decide_True by (by right). done.
  - destruct (decide (y = source_id m)) as [->|N].
    + rewrite decide_True by left. apply lookup_delete.
    + rewrite decide_False by (by intros [?|?]%elem_of_cons). by apply lookup_delete_ne.
Qed.
Lemma cl_delete_all_sim c w m s : sim c w -> op_ok (VDeleteAll m s) -> follows hash w (cl_delete_all lister c m s) (ideal_step hash w (VDeleteAll m s)).
Proof.
  intros H [K L]. unfold cl_delete_all. rewrite own_current by done. cbn [ideal_step].
  assert (Ek : has_suffix "List" (gvk_kind (get_gvk m)) = false).
  { assert (F := f_equal gvk_kind (own_current m K)). cbn [view_gvk gvk_kind] in F. by rewrite <- F. }
  set (l := vc_list lister c (list_gvk (get_gvk m)) s). assert (Hin : forall m', In m' l <-> w !! source_id m' = Some m' /\ get_gvk m' = get_gvk m /\ selects s m' = true).
  { intros m'. unfold l. rewrite (vc_list_in c w) by done. by rewrite object_list_gvk. }
  assert (D := delete_items_sim (get_gvk m) l c w H). destruct D as (D1 & D2 & D3).
  { intros m' Hm. apply Hin in Hm as (Hw & Hg & _). rewrite <- Hg. destruct (sim_w _ _ _ H _ _ _ Hw) as [E _]. done. }
  { by eapply vc_list_keys. }
  assert (E : foldl (fun w m => delete (source_id m) w) w l = filter (fun e => ~ (e.1.1 = get_gvk m /\ selects s e.2 = true)) w).
  { apply map_eq. intros [y i]. rewrite foldl_delete. symmetry. case_decide as Ey.
    - apply elem_of_list_In, in_map_iff in Ey as (m' & Ey & Hm). apply Hin in Hm as (Hw & Hg & Hs). apply map_filter_lookup_None. right. intros v Hv N. apply N.
      rewrite Ey in Hw. assert (v = m') as -> by congruence. split; [|done]. cbn [fst]. rewrite <- Hg. by injection Ey.
    - destruct (w !! (y, i)) as [m'|] eqn:Ew.
      + apply map_filter_lookup_Some. split; [done|]. cbn [fst snd]. intros [Hy Hs]. apply Ey. destruct (sim_w _ _ _ H _ _ _ Ew) as [_ E]. rewrite <- E.
        apply elem_of_list_In, in_map, Hin. rewrite E. split_and!; [done| |done]. rewrite <- Hy. by injection E.
      + apply map_filter_lookup_None. by left. }
  split_and!; cbn [fst snd] in *; by rewrite <- ?E.
Qed.

(** ** Histories *)
Lemma vstep_sim c w o : sim c w -> op_ok o -> follows hash w (vstep hash lister c o) (ideal_step hash w o).
Proof.
  intros H Ho. destruct o as [m|m|m p|m|m s|sub m|sub m s]; cbn [vstep].
  - by apply vc_add_sim.
  - destruct Ho as [Hm K]. cbn [ideal_step]. destruct (w !! source_id m) as [old|] eqn:E; [by eapply cl_update_sim|].
    unfold cl_update. rewrite (current_sim hash c w), E; [by apply follows_same|done..|apply Hm].
  - by apply cl_patch_sim.
  - by apply vc_delete_sim.
  - by apply cl_delete_all_sim.
  - by apply cl_sub_update_sim.
  - by apply cl_sub_create_sim.
Qed.
Lemma cache_run_sim os : forall c w, sim c w -> Forall op_ok os ->
  let '(c', es, rs) := cache_run hash lister c os in let '(w', rs') := ideal_run hash w os in
  sim c' w' /\ rs = rs' /\ tells w es w'.
Proof.
  induction os as [|o os IH]; intros c w H Ho; [split_and!; [done..|apply tells_nil]|]. apply Forall_cons in Ho as [H1 H2].
  cbn [cache_run ideal_run]. destruct (vstep_sim c w o H H1) as (S1 & S2 & S3). destruct (vstep hash lister c o) as [[c1 es] r]. destruct (ideal_step hash w o) as [w1 r'].
  cbn [fst snd] in *. specialize (IH c1 w1 S1 H2). destruct (cache_run hash lister c1 os) as [[c2 es'] rs]. destruct (ideal_run hash w1 os) as [w2 rs'].
  destruct IH as (I1 & -> & I3). subst. split_and!; [done..|by eapply tells_app].
Qed.
Lemma vc_get_sim c w x ns name : sim c w -> is_view_kind x = true -> plain (ns, name) -> vc_get c x ns name = w !! (x, (ns, name)).
Proof.
  intros H V Hp. unfold vc_get. rewrite V. change (skey ns name) with (skey (ns, name).1 (ns, name).2). rewrite (sim_lookup hash c w) by done.
  destruct (w !! (x, (ns, name))) as [m|] eqn:E; [|done]. simpl. f_equal. destruct (sim_w _ _ _ H _ _ _ E) as [E1 _].
  destruct (sim_c _ _ _ H _ _ _ E1) as [Hs _]. by apply so_copy in Hs.
Qed.

(** ** Handlers *)
Lemma run_writes acts : forall s, vs_cache (vact_run hash lister s acts) = (cache_run hash lister (vs_cache s) (writes acts)).1.1.
Proof.
  induction acts as [|a acts IH]; intros s; [done|]. unfold vact_run in *. cbn [foldl]. rewrite IH. destruct a as [o|x|i].
  - change (writes (Do o :: acts)) with (o :: writes acts). cbn [cache_run vact_step]. destruct (vstep hash lister (vs_cache s) o) as [[c es] r]. cbn [vs_cache].
    by destruct (cache_run hash lister c (writes acts)) as [[? ?] ?].
  - change (writes (Listen x :: acts)) with (writes acts). cbn [vact_step]. by destruct (is_view_kind x).
  - done.
Qed.
Lemma writes_ok acts : Forall act_ok acts -> Forall op_ok (writes acts).
Proof.
  induction 1 as [|a acts Ha H IH]; [constructor|]. destruct a as [o|x|i]; [|done..]. change (writes (Do o :: acts)) with (o :: writes acts). by constructor.
Qed.
Lemma run_sim acts : Forall act_ok acts -> exists w, sim (vs_cache (vact_run hash lister vsys0 acts)) w /\ w = (ideal_run hash ∅ (writes acts)).1.
Proof.
  intros H. rewrite run_writes. assert (S := cache_run_sim (writes acts) ∅ ∅ (sim_empty hash) (writes_ok _ H)). cbn [vs_cache vsys0].
  destruct (cache_run hash lister ∅ (writes acts)) as [[c es] rs]. destruct (ideal_run hash ∅ (writes acts)) as [w rs']. exists w. by destruct S.
Qed.

(** Between its registration and its removal a handler gets every event. *)
Lemma run_log acts : forall s w i x, sim (vs_cache s) w -> Forall act_ok acts -> vs_handlers s !! i = Some x -> (i < vs_next s)%nat -> ~ In (Leave i) acts ->
  vs_handlers (vact_run hash lister s acts) !! i = Some x
  /\ vs_log (vact_run hash lister s acts) i = vs_log s i ++ events_on x (cache_run hash lister (vs_cache s) (writes acts)).1.2.
Proof.
  induction acts as [|a acts IH]; intros s w i x H Ho Hi Hn Hl'; [split; [done|]; cbn; by rewrite app_nil_r|].
  apply Forall_cons in Ho as [H1 H2]. unfold vact_run in *. cbn [foldl]. assert (N : ~ In (Leave i) acts) by (intros ?; apply Hl'; by right). destruct a as [o|y|j].
  - change (writes (Do o :: acts)) with (o :: writes acts). cbn [cache_run vact_step].
    destruct (vstep_sim (vs_cache s) w o H H1) as (S1 & _ & S3). destruct (vstep hash lister (vs_cache s) o) as [[c es] r]. cbn [fst snd] in *.
    destruct (IH (Vsys c (vs_next s) (vs_handlers s) (deliver (vs_handlers s) (vs_log s) es)) _ i x S1 H2 Hi Hn N) as [I1 I2].
    split; [done|]. rewrite I2. cbn [vs_cache vs_log]. destruct (cache_run hash lister c (writes acts)) as [[c2 es'] rs]. cbn [fst snd].
    unfold deliver. rewrite Hi, events_on_app, app_assoc. f_equal. f_equal. unfold events_on. apply map_ext_in. intros [y e] Hin. apply filter_In in Hin as [Hin _].
    by apply (t_copy _ _ _ S3) in Hin.
  - change (writes (Listen y :: acts)) with (writes acts). cbn [vact_step]. destruct (is_view_kind y) eqn:V; [|by eapply IH].
    destruct (IH (Vsys (vs_cache s) (S (vs_next s)) (<[vs_next s := y]> (vs_handlers s)) (fun j => if decide (j = vs_next s) then map (fun m => WCreate (obj_copy m)) (lister (cache_of (vs_cache s) y)) else vs_log s j)) w i x) as [I1 I2]; try done.
    + cbn [vs_handlers]. rewrite lookup_insert_ne by lia. done.
    + cbn [vs_next]. lia.
    + split; [done|]. rewrite I2. cbn [vs_log vs_cache]. rewrite decide_False by lia. done.
  - change (writes (Leave j :: acts)) with (writes acts). cbn [vact_step].
    destruct (IH (Vsys (vs_cache s) (vs_next s) (delete j (vs_handlers s)) (vs_log s)) w i x) as [I1 I2]; try done.
    cbn [vs_handlers]. rewrite lookup_delete_ne; [done|]. intros ->. apply Hl'. by left.
Qed.
Lemma listen_log acts1 acts2 x : Forall act_ok (acts1 ++ acts2) -> is_view_kind x = true ->
  let s := vact_run hash lister vsys0 acts1 in let i := vs_next s in ~ In (Leave i) acts2 ->
  vs_log (vact_run hash lister s (Listen x :: acts2)) i
  = map WCreate (lister (cache_of (vs_cache s) x)) ++ events_on x (cache_run hash lister (vs_cache s) (writes acts2)).1.2
  /\ vs_handlers (vact_run hash lister s (Listen x :: acts2)) !! i = Some x.
Proof.
  intros [H1 H2]%Forall_app V s i N. destruct (run_sim acts1 H1) as (w & H & _). fold s in H.
  change (vact_run hash lister s (Listen x :: acts2)) with (vact_run hash lister (vact_step hash lister s (Listen x)) acts2). cbn [vact_step]. rewrite V. fold i.
  destruct (run_log acts2 (Vsys (vs_cache s) (S i) (<[i := x]> (vs_handlers s)) (fun j => if decide (j = i) then map (fun m => WCreate (obj_copy m)) (lister (cache_of (vs_cache s) x)) else vs_log s j)) w i x) as [I1 I2]; try done.
  - cbn [vs_handlers]. by rewrite lookup_insert.
  - cbn [vs_next]. lia.
  - split; [|done]. rewrite I2. cbn [vs_log vs_cache]. rewrite decide_True by done. f_equal. apply map_ext_in. intros m Hin. apply lister_in in Hin as (k & Hk).
    destruct (sim_c _ _ _ H _ _ _ Hk) as [Hs _]. by rewrite (so_copy _ _ _ _ Hs).
Qed.
Lemma replayed_adds c w x : sim c w -> forall i, replayed (map WCreate (lister (cache_of c x))) i = kind_of w x i.
Proof.
  intros H i. unfold replayed. assert (E : omap request_of (map WCreate (lister (cache_of c x))) = map (Delta Added) (lister (cache_of c x))).
  { generalize (lister (cache_of c x)). intros l. induction l as [|m l IH]; [done|]. cbn. by f_equal. }
  rewrite E. clear E. assert (ND : NoDup (map (fun d => obj_id (d_obj d)) (map (Delta Added) (lister (cache_of c x))))).
  { assert (N := lister_keys c w x H). revert N. generalize (lister (cache_of c x)). intros l N. induction l as [|m l IH]; [constructor|].
    cbn [map] in *. apply NoDup_cons in N as [N1 N2]. constructor; [|by apply IH]. intros E. apply N1. apply elem_of_list_In, in_map_iff in E as (d & E & Hin).
    apply in_map_iff in Hin as (m' & <- & Hin). apply elem_of_list_In, in_map_iff. exists m'. split; [|done]. cbn [d_obj] in E. by rewrite !store_key_skey, E. }
  unfold kind_of. destruct (w !! (x, i)) as [m|] eqn:Ew.
  - destruct (sim_w _ _ _ H _ _ _ Ew) as [Ek Es]. assert (Em : obj_id m = i) by (by injection Es).
    rewrite <- Em. rewrite (apply_ops_in _ _ (Delta Added m)); [done|done|]. apply in_map, lister_in. eauto.
  - rewrite apply_ops_notin; [done|]. rewrite in_map_iff. intros (d & E & Hin). apply in_map_iff in Hin as (m & <- & Hin). cbn [d_obj] in E.
    apply lister_in in Hin as (k & Hk). destruct (sim_c _ _ _ H _ _ _ Hk) as [[] Hw]. unfold source_id in Hw. rewrite so_gvk, E in Hw. congruence.
Qed.
Lemma listen_replay acts1 acts2 x : Forall act_ok (acts1 ++ acts2) -> is_view_kind x = true ->
  let s := vact_run hash lister vsys0 acts1 in let i := vs_next s in ~ In (Leave i) acts2 ->
  let s' := vact_run hash lister s (Listen x :: acts2) in
  exists w, sim (vs_cache s') w /\ forall j, replayed (vs_log s' i) j = kind_of w x j.
Proof.
  intros Hok V s i N s'. destruct (listen_log acts1 acts2 x Hok V N) as [E _]. fold s i s' in E. apply Forall_app in Hok as [H1 H2].
  destruct (run_sim acts1 H1) as (w & H & _). fold s in H. assert (S := cache_run_sim (writes acts2) (vs_cache s) w H (writes_ok _ H2)).
  assert (Ec : vs_cache s' = (cache_run hash lister (vs_cache s) (writes acts2)).1.1).
  { unfold s'. rewrite run_writes. done. }
  destruct (cache_run hash lister (vs_cache s) (writes acts2)) as [[c es] rs]. destruct (ideal_run hash w (writes acts2)) as [w' rs']. cbn [fst snd] in *.
  destruct S as (S1 & _ & S3). exists w'. split; [by rewrite Ec|]. intros j. rewrite E. unfold replayed. rewrite omap_app. unfold apply_ops. rewrite foldl_app.
  rewrite <- (t_ops _ _ _ S3). apply apply_ops_cong. intros k. by apply replayed_adds.
Qed.
End view.
