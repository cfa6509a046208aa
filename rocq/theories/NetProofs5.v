(** Proofs about controllers that work together: one write. *)
From Verif Require Import NetModel ZSetSpec OpsSpec GatherSpec ExecSpec JsonSpec CleanSpec PipelineSpec GroupSpec ValueSpec ViewSpec WriterSpec NetSpec.
From Verif Require Import StageSpec JsonProofs CleanProofs StageClean ReconcileProofs ObjProofs ValueProofs GroupProofs ViewProofs ViewProofs2 WriterProofs WriterProofs2 WriterProofs3.
From Verif Require Import NetProofs NetProofs2 NetProofs3.

Section write.
Context {FF : FloatFmt}.
Notation cl m := (clean m = true).
Variable hash : string -> string.
Hypothesis Hh : forall t, hash t <> EmptyString.
Hypothesis Hu : forall t, utf8_ok (hash t) = true.
Variable x : gvk.
Hypothesis Gx : gvk_ok x.
Hypothesis Ox : own_kind x.
Hypothesis Cx : cl (set_gvk [] x).
Let Vx : is_view_kind x = true := own_view x Ox.

Lemma clean_encapsulate a i : cl a -> doc_id a = Some i -> cl (encapsulate x a i.1 i.2).
Proof.
  intros C Hi. assert (W := clean_owf _ C). destruct (encapsulate_get x a i) as (y & Hy & ->); [by apply owf_sorted|done|].
  assert (Cy : cl y) by (by apply (clean_get _ _ _ C Hy)). apply clean_set; [by apply clean_gvk|done|]. change (cl (meta_of y i)).
  unfold doc_id in Hi. rewrite Hy in Hi. apply bind_Some in Hi as (ns & Hns & Hi). destruct (mget y "name") as [[| | | |s| |]|] eqn:En; try done. case_decide; [done|]. injection Hi as <-. cbn [fst snd] in *.
  assert (Us : utf8_ok s = true) by (by apply (clean_get _ _ _ Cy En)).
  assert (Un : utf8_ok ns = true). { destruct (mget y "namespace") as [[| | | |s'| |]|] eqn:E; try done; injection Hns as <-; [|done]. by apply (clean_get _ _ _ Cy E). }
  unfold meta_of. cbn [fst snd]. case_decide; [apply clean_del|]; [|apply clean_set; [|done..]]; (apply clean_set; [|done..]); by repeat apply clean_del.
Qed.
Lemma emitted_ok d : emitted x d -> let m := d_obj d in
  WriterSpec.target_ok x m /\ cl m /\ gvk_is m x /\ meta m "name" = str_field (get_name m) /\ meta m "namespace" = str_field (get_namespace m).
Proof.
  intros (_ & a & i & C & Hi & P & E). cbv zeta. rewrite E. assert (W := clean_owf _ C). destruct (encapsulate_ok x a i W Gx Hi) as (I & G & W' & _ & D).
  assert (Ce := clean_encapsulate a i C Hi). destruct (doc_id_meta _ _ Hi) as (_ & _ & N2).
  assert (I1 : get_namespace (encapsulate x a i.1 i.2) = i.1) by (exact (f_equal fst I)). assert (I2 : get_name (encapsulate x a i.1 i.2) = i.2) by (exact (f_equal snd I)).
  split_and!; [|done|done| |].
  - unfold WriterSpec.target_ok. rewrite I, I2, Vx. split_and!; try done. by apply clean_nnz.
  - rewrite I2. destruct (encapsulate_get x a i) as (y & Hy & ->); [by apply owf_sorted|done|]. unfold meta. cbn [nested_get]. rewrite mget_set_eq.
    destruct (meta_of_names y i) as [-> _]; [apply owf_sorted, clean_owf; by apply (clean_get _ _ _ C Hy)|]. unfold str_field. by rewrite decide_False.
  - rewrite I1. destruct (encapsulate_get x a i) as (y & Hy & ->); [by apply owf_sorted|done|]. unfold meta. cbn [nested_get]. rewrite mget_set_eq.
    destruct (meta_of_names y i) as [_ ->]; [apply owf_sorted, clean_owf; by apply (clean_get _ _ _ C Hy)|]. unfold str_field. by case_decide.
Qed.

Definition views_ok (c : caches) (w : world) : Prop := sim hash c w /\ forall k m, w !! k = Some m -> cl m /\ is_Some (doc_id (stripped m)).
Lemma views_fine c w y : views_ok c w -> fine y (cache_of c y).
Proof.
  intros [H C] k m E. destruct (sim_c _ _ _ H _ _ _ E) as [So Hw]. assert (Co := so_copy _ _ _ _ So). destruct So. split; [|done]. split_and!; [done| |done|done|by eapply C].
  unfold stripped. rewrite Co. apply clean_remove_uid. by eapply C.
Qed.
Definition tracked (T : contents) (b : Prop) (c : caches) : Prop := forall i, plain i ->
  match T i with
  | None => held_plain (cache_of c x) i = None
  | Some m => exists m', held_plain (cache_of c x) i = Some m' /\ reflects x m m' /\ (b -> stripped m' = m)
  end.
Lemma view_step c w d : views_ok c w -> emitted x d ->
  exists c' es w', view_write hash x c d = (c', es, VOk) /\ views_ok c' w'
   /\ (es = [] /\ c' = c
       \/ (exists v e, sound x v /\ es = [(x, e)] /\ c' = put c x v /\ (e = WCreate v /\ cache_of c x !! store_key v = None \/ exists old, e = WUpdate old (Some v)))
       \/ exists old, cache_of c x !! store_key old = Some old /\ es = [(x, WDelete old)] /\ c' = drop_key c x (store_key old))
   /\ forall T b, tracked T b c -> (b -> bare (d_obj d) /\ forall i m, T i = Some m -> bare m) -> tracked (apply_op T d) b c'.
Proof.
  intros Ok Em. assert (Fv := fun y => views_fine c w y Ok). destruct (emitted_ok d Em) as (Tm & Cm & Gm & M1 & M2). destruct Em as [Ty _]. destruct Ok as [H C]. set (m := d_obj d) in *.
  assert (Pm : plain (obj_id m)) by apply Tm.
  assert (L := sim_lookup hash c w x (obj_id m) H Pm).
  assert (Ct : cl (typed x m)). { unfold typed. rewrite (gvk_is_copy m x) by (first [done|by apply owf_sorted, clean_owf]). by apply clean_gvk. }
  destruct Ty as [Ty|Ty].
  - destruct (view_upsert hash x m Tm Vx c w d H eq_refl) as (c' & es & E & Ch); [by rewrite Ty..|].
    destruct (value_sound hash Hh x m Tm Vx c w H) as (Fi & Nz & So & Sv & Re).
    assert (Vb := value_bare hash Hh x m Tm Vx c w H).
    set (v := stamp hash (updated x (typed x m) (base x m (w !! (x, obj_id m))))) in *.
    assert (Cv : cl v).
    { unfold v, stamp. apply clean_with_uid; [done|]. destruct (base_storable hash x m Tm c w H) as [_ (Fu & _)]. rewrite (fit_copy _ _ Fu). apply clean_updated; [done|done|].
      destruct (w !! (x, obj_id m)) as [old|] eqn:Eo; cbn [base]; [by eapply C|]. by apply clean_restore. }
    assert (Nv : is_Some (doc_id (stripped v))) by exact (value_named hash Hh x m Tm Vx c w H).
    clearbody v. assert (Gv : get_gvk v = x) by (exact (f_equal fst Sv)). assert (Iv : obj_id v = obj_id m) by (exact (f_equal snd Sv)).
    assert (Sd : sound x v). { split_and!; [apply Fi| |done|by rewrite Iv|done]. unfold stripped. rewrite (so_copy _ _ _ _ So). by apply clean_remove_uid. }
    assert (Kv : store_key v = skey (obj_id m).1 (obj_id m).2) by (by rewrite store_key_skey, Iv).
    assert (Cases : (es = [] /\ c' = c /\ w !! (x, obj_id m) = Some v) \/ c' = put c x v) by (destruct Ch as [?|(? & _ & ? & _)]; [by left|by right]).
    exists c', es, (<[(x, obj_id m) := v]> w). split; [done|]. split; [|split].
    + assert (C' : forall k m0, <[(x, obj_id m) := v]> w !! k = Some m0 -> cl m0 /\ is_Some (doc_id (stripped m0))). { intros k m0. rewrite lookup_insert_Some. intros [[_ <-]|[_ ?]]; [done|by eapply C]. }
      split; [|done]. destruct Cases as [(_ & -> & Ew)| ->]; [by rewrite insert_id|]. rewrite <- Sv, <- Gv at 1. apply sim_put; [done|]. by rewrite Gv.
    + destruct Ch as [(-> & -> & _)|(e & -> & -> & He)]; [by left|]. right. left. exists v, e. split_and!; [done..|].
      destruct He as [[-> N]|[old ->]]; [left|right; eauto]. split; [done|]. by rewrite Kv, L.
    + intros T b HT Hb i Pi. unfold apply_op. fold m. rewrite Ty. case_decide as D.
      * subst i. exists v. split_and!; [|done|].
        -- rewrite held_plain_in by done. destruct Cases as [(_ & -> & Ew)| ->]; [by rewrite L|]. rewrite cache_put, decide_True, Kv by done. by rewrite lookup_insert.
        -- intros Hb'. destruct (Hb Hb') as [B1 B2]. apply Vb; [done..|]. intros old Eo. specialize (HT _ Pm). rewrite held_plain_in, L, Eo in HT by done.
           destruct (T (obj_id m)) as [m1|] eqn:Et; [|done]. destruct HT as (m' & [= <-] & _ & R). rewrite (R Hb'). by eapply B2.
      * specialize (HT i Pi). assert (Eh : held_plain (cache_of c' x) i = held_plain (cache_of c x) i); [|by rewrite Eh].
        destruct Cases as [(_ & -> & _)| ->]; [done|]. rewrite !held_plain_in by done. rewrite cache_put, decide_True, Kv by done. rewrite lookup_insert_ne; [done|]. intros E2. apply D. symmetry. by apply skey_inj.
  - destruct (view_delete hash x m Tm Vx c w d H eq_refl Ty) as (c' & es & E & Ch). exists c', es, (delete (x, obj_id m) w). split; [done|].
    assert (Ho : forall old, w !! (x, obj_id m) = Some old -> store_key old = skey (obj_id m).1 (obj_id m).2 /\ source_id old = (x, obj_id m)).
    { intros old Eo. destruct (sim_w _ _ _ H _ _ _ Eo) as [_ So]. split; [|done]. rewrite store_key_skey. by rewrite (f_equal snd So : obj_id old = obj_id m). }
    split; [|split].
    + split; [|intros k m0; rewrite lookup_delete_Some; intros [_ ?]; by eapply C].
      destruct Ch as [(_ & -> & Ew)|(old & Eo & _ & ->)]; [by rewrite delete_notin|]. destruct (Ho _ Eo) as [K1 <-]. apply sim_drop; [done|]. by rewrite K1, L.
    + destruct Ch as [(-> & -> & _)|(old & Eo & -> & ->)]; [by left|]. right. right. exists old. split_and!; [|done..]. destruct (Ho _ Eo) as [-> _]. by rewrite L.
    + intros T b HT Hb i Pi. unfold apply_op. fold m. rewrite Ty. case_decide as D.
      * subst i. rewrite held_plain_in by done. destruct Ch as [(_ & -> & Ew)|(old & Eo & _ & ->)]; [by rewrite L|]. destruct (Ho _ Eo) as [-> _]. rewrite cache_drop, decide_True by done. by rewrite lookup_delete.
      * specialize (HT i Pi). assert (Eh : held_plain (cache_of c' x) i = held_plain (cache_of c x) i); [|by rewrite Eh].
        destruct Ch as [(_ & -> & _)|(old & Eo & _ & ->)]; [done|]. destruct (Ho _ Eo) as [-> _]. rewrite !held_plain_in by done. rewrite cache_drop, decide_True by done. rewrite lookup_delete_ne; [done|]. intros E2. apply D. symmetry. by apply skey_inj.
Qed.
End write.
