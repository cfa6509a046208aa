(** Proofs about controllers that work together: what the writer leaves in a view. *)
From Verif Require Import NetModel ZSetSpec OpsSpec GatherSpec ExecSpec JsonSpec CleanSpec PipelineSpec GroupSpec ValueSpec ViewSpec WriterSpec NetSpec.
From Verif Require Import StageSpec JsonProofs CleanProofs StageClean ReconcileProofs ObjProofs ValueProofs GroupProofs ViewProofs ViewProofs2 WriterProofs WriterProofs2 WriterProofs3.

Section clean.
Context {FF : FloatFmt}.
Notation cl m := (clean m = true).

Lemma clean_put m f v : cl m -> utf8_ok f = true -> match v with Some v => jclean v = true | None => True end -> cl (put_meta m f v).
Proof.
  intros C Hf Hv. assert (J : jclean (JMap []) = true) by done. unfold put_meta. destruct v as [v|]; [unfold nested_set'|]; cbn [nested_set nested_del]; destruct (mget m "metadata") as [[]|] eqn:E; try done; cbn.
  - apply clean_set; [done..|]. apply clean_set; [|done..]. by apply (clean_get _ _ _ C E).
  - apply clean_set; [done..|]. by apply (clean_set []).
  - apply clean_set; [done..|]. apply clean_del. by apply (clean_get _ _ _ C E).
Qed.
Lemma clean_str_field s : utf8_ok s = true -> match str_field s with Some v => jclean v = true | None => True end.
Proof. intros H. unfold str_field. by case_decide. Qed.
Lemma clean_meta m f v : cl m -> meta m f = Some v -> utf8_ok f = true /\ jclean v = true.
Proof.
  unfold meta. cbn [nested_get]. intros C. destruct (mget m "metadata") as [[| | | | | |y]|] eqn:E; try done. intros Ev. apply (clean_get y); [|done]. by apply (clean_get _ _ _ C E).
Qed.
Lemma clean_nested_str m f : cl m -> utf8_ok (nested_str m ["metadata"; f]) = true.
Proof.
  intros C. rewrite meta_str. destruct (meta m f) as [[]|] eqn:E; try done. by apply (clean_meta _ _ _ C E).
Qed.
Lemma clean_gvk m x : cl m -> cl (set_gvk [] x) -> cl (set_gvk m x).
Proof.
  intros C Cx. unfold set_gvk, set_kind, set_api_version in *. apply clean_set; [apply clean_set; [done..|]|done|].
  - exact (proj2 (clean_get _ "apiVersion" _ Cx eq_refl)).
  - exact (proj2 (clean_get _ "kind" _ Cx eq_refl)).
Qed.
Lemma clean_iff m : ksorted m -> (forall k v, mget m k = Some v -> utf8_ok k = true /\ jclean v = true) -> cl m.
Proof.
  intros Hs H. apply jclean_map_intro; [by apply ksorted_keys|]. apply Forall_forall. intros [k v] Hin. apply (H k v). by apply in_mget.
Qed.
Lemma clean_fields new obj : cl new -> cl obj -> cl (fields new obj).
Proof.
  intros Cn Co. apply clean_iff; [by apply fields_sorted, owf_sorted, clean_owf|]. intros k v. rewrite fields_get by (by apply owf_sorted, clean_owf).
  case_decide; intros E; [exact (clean_get _ _ _ Co E)|exact (clean_get _ _ _ Cn E)].
Qed.
Lemma clean_string_map v l : (forall w, v = Some w -> jclean w = true) -> string_map v = Some l -> Forall (fun kv => utf8_ok kv.1 = true /\ utf8_ok kv.2 = true) l.
Proof.
  intros C E. destruct v as [[| | | | | |o]|]; try done. specialize (C _ eq_refl). apply jclean_map in C as [_ C]. revert l E.
  unfold string_map. induction C as [|[k v] o [H1 H2] HF IH]; intros l E; [by injection E as <-|]. cbn in E. destruct v; try done. cbn in E. destruct (mapM _ o) as [l'|] eqn:E'; [|done]. injection E as <-.
  constructor; [by split|]. by apply IH.
Qed.
Lemma clean_strings old l : Forall (fun kv => utf8_ok kv.1 = true /\ utf8_ok kv.2 = true) l -> ksorted (strings old) -> Forall (fun kv => utf8_ok kv.1 = true /\ utf8_ok kv.2 = true) old -> cl (add_strings old l).
Proof.
  intros Hl Hs Ho. unfold add_strings. assert (C : cl (strings old)).
  { apply jclean_map_intro; [by apply ksorted_keys|]. unfold strings. apply Forall_map. eapply Forall_impl; [exact Ho|]. done. }
  revert C. generalize (strings old). clear Ho Hs old. induction Hl as [|kv l [H1 H2] HF IH]; intros d C; [done|]. cbn [foldl]. apply IH. by apply clean_set.
Qed.
Lemma clean_merge_tags f new obj : utf8_ok f = true -> cl new -> cl obj -> cl (merge_tags f new obj).
Proof.
  intros Hf Cn Co. unfold merge_tags. destruct (string_map (meta new f)) as [l|] eqn:E; [|done]. apply clean_put; [done..|].
  apply clean_strings.
  - eapply clean_string_map; [|exact E]. intros w Ew. by apply (clean_meta _ _ _ Cn Ew).
  - destruct (string_map (meta obj f)) as [l0|] eqn:E0; [|constructor]. cbn. unfold ksorted, strings. rewrite map_map. cbn.
    destruct (meta obj f) as [[| | | | | |o]|] eqn:Eo; try done. destruct (string_map_keys _ _ E0) as [Ek _]. change (StronglySorted slt (map fst l0)). rewrite Ek.
    apply (owf_sorted o). apply clean_owf. exact (proj2 (clean_meta _ _ _ Co Eo)).
  - destruct (string_map (meta obj f)) as [l0|] eqn:E0; [|constructor]. eapply clean_string_map; [|exact E0]. intros w Ew. by apply (clean_meta _ _ _ Co Ew).
Qed.
Lemma clean_restore x m new : cl (set_gvk [] x) -> cl m -> cl new -> cl (restore x m new).
Proof.
  intros Cx C Cn. unfold restore. rewrite set_namespace_put, set_name_put. apply clean_put; [|done|by apply clean_str_field, clean_nested_str]. apply clean_put; [|done|by apply clean_str_field, clean_nested_str]. by apply clean_gvk.
Qed.
Lemma clean_updated x new obj : cl (set_gvk [] x) -> cl new -> cl obj -> cl (updated x new obj).
Proof. intros Cx Cn Co. rewrite updated_eq. apply clean_restore; [done| |done]. apply clean_merge_tags; [done..|]. apply clean_merge_tags; [done..|]. by apply clean_fields. Qed.
Lemma clean_with_uid hash m : (forall t, utf8_ok (hash t) = true) -> cl m -> cl (with_uid hash m).
Proof. intros Hh C. unfold with_uid. case_match; [done|]. rewrite set_uid_put. apply clean_put; [done..|]. apply clean_str_field, Hh. Qed.
Lemma clean_remove_uid m : cl m -> cl (remove_uid m).
Proof. intros C. unfold remove_uid. case_match; [done|]. change (cl (put_meta m "uid" None)). by apply clean_put. Qed.
Lemma clean_nnz v : jclean v = true -> nonegzero v.
Proof.
  induction v as [|bo|n|f|s|l IHl|m IHm] using json_rect'; intros C; constructor.
  - cbn in C. by intros ->.
  - apply jclean_list in C. rewrite Forall_forall in *. intros x Hx. by apply IHl, C.
  - apply jclean_map in C as [_ C]. rewrite Forall_forall in *. intros x Hx. apply IHm; [done|]. by apply C.
Qed.
End clean.

Section view.
Variable hash : string -> string.
Hypothesis Hh : forall t, hash t <> EmptyString.
Variables (x : gvk) (m : jobj).
Hypothesis Hm : target_ok x m.
Hypothesis Vx : is_view_kind x = true.
Notation k := (x, obj_id m).
Notation new := (typed x m).
Notation value old := (stamp hash (updated x new (base x m old))).

Lemma own_x : own_kind x.
Proof. destruct Hm as (_ & _ & _ & _ & V). rewrite Vx in V. apply V. Qed.
Lemma sim_fit c w old : sim hash c w -> w !! k = Some old -> fit k old /\ nonegzero (JMap old) /\ stamp hash old = old /\ obj_copy old = old.
Proof.
  intros H E. destruct (sim_w _ _ _ H _ _ _ E) as [E1 E2]. destruct (sim_c _ _ _ H _ _ _ E1) as [Ho _]. assert (C := so_copy _ _ _ _ Ho). destruct Ho.
  split_and!; [|done..]. destruct Hm as (W & P & N & G & V). assert (Ei : obj_id old = obj_id m) by (exact (f_equal snd E2)).
  split; [done|rewrite <- C; rewrite <- so_gvk; apply copy_is|done|done|]. apply name_has. unfold obj_id in Ei. injection Ei as _ ->. done.
Qed.
Lemma base_storable c w : sim hash c w -> fit k (base x m (w !! k)) /\ storable k (updated x new (base x m (w !! k))).
Proof.
  intros H. assert (F : fit k (base x m (w !! k)) /\ nonegzero (JMap (base x m (w !! k)))).
  { destruct (w !! k) as [old|] eqn:E; cbn [base]; [by destruct (sim_fit c w old H E) as (? & ? & _)|]. split; [by apply shell_fit|by apply shell_nnz]. }
  split; [apply F|]. apply updated_storable; [done|apply F|intros; apply F].
Qed.
Lemma view_upsert c w d : sim hash c w -> d_obj d = m -> d_type d <> Deleted -> d_type d <> Sync ->
  exists c' es, view_write hash x c d = (c', es, VOk)
   /\ (es = [] /\ c' = c /\ w !! k = Some (value (w !! k))
       \/ exists e, es = [(x, e)] /\ c' = put c x (value (w !! k))
          /\ (e = WCreate (value (w !! k)) /\ w !! k = None \/ exists old, e = WUpdate (Some old) (Some (value (w !! k))))).
Proof.
  intros H Ed Td Sd. destruct (base_storable c w H) as [Fb St]. assert (Wr := storable_writable _ _ St Vx). destruct St as (Fu & _ & _).
  assert (G := fit_gvk _ _ Fu). cbn in G. assert (S := fit_source _ _ Fu). assert (Hp : plain (obj_id m)) by apply Hm. assert (O := own_x).
  assert (Ev : view_write hash x c d = match vc_get c x (get_namespace new) (get_name new) with
      | None => vc_add hash c (updated x new (shell x new))
      | Some m => let '(c, es, r) := cl_update hash c (updated x new m) in (c, es, if decide (r = VNotFound) then VOk else r)
      end).
  { unfold view_write. rewrite Ed. by destruct (d_type d). }
  rewrite Ev, typed_name, typed_namespace. replace (vc_get c x (get_namespace m) (get_name m)) with (w !! k).
  2:{ symmetry. by apply (vc_get_sim hash c w x (get_namespace m) (get_name m)). }
  destruct (w !! k) as [old|] eqn:E; cbn [base] in *.
  - destruct (sim_fit c w old H E) as (Fo & No & So & Co). unfold cl_update. rewrite (current_sim hash c w) by (rewrite ?G; first [done|apply Wr]). rewrite S, E.
    destruct (obj_equal old (updated x new old)) eqn:Q.
    + eexists _, _. split; [reflexivity|]. left. split_and!; [done..|]. apply go_equal_nnz in Q; [|done|apply Wr]. injection Q as <-. by rewrite So.
    + unfold vc_update. rewrite stamp_gvk, G, Vx. destruct (obj_equal old (stamp hash (updated x new old))) eqn:Q2.
      * eexists _, _. split; [reflexivity|]. left. split_and!; [done..|]. apply go_equal_nnz in Q2; [by injection Q2 as <-|done|]. apply stamp_nnz; apply Wr.
      * eexists _, _. split; [reflexivity|]. right. eexists. split_and!; [done..|]. right. eauto.
  - unfold vc_add. rewrite G, Vx. eexists _, _. split; [reflexivity|]. right. eexists. split_and!; [done..|]. by left.
Qed.
(** It is the writer of [target_write]. *)
Lemma view_write_is has_status unconditional s w d orig : sim hash (cl_views s) w -> d_obj d = m ->
  target_write hash has_status unconditional Updater x s [] d orig = let '(c, _, r) := view_write hash x (cl_views s) d in (with_views s c, of_view r).
Proof.
  intros H Ed. destruct (base_storable (cl_views s) w H) as [Fb (Fu & _)]. assert (N : get_gvk new = x /\ obj_id new = obj_id m).
  { destruct Hm as (W & P & N & G & _). assert (F := typed_fit x m W G N). split; [exact (fit_gvk _ _ F)|exact (fit_id _ _ F)]. }
  destruct N as [N1 N2]. assert (Fs : fit k (shell x new)) by (by apply shell_fit). assert (S1 := fit_gvk _ _ Fs). assert (S2 := fit_id _ _ Fs). cbn [fst snd] in *.
  assert (S3 : get_namespace (shell x new) = get_namespace m) by (exact (f_equal fst S2)). assert (S4 : get_name (shell x new) = get_name m) by (exact (f_equal snd S2)).
  assert (G := fit_gvk _ _ Fu). cbn [fst] in G.
  unfold target_write. cbv zeta. rewrite Ed. change (set_gvk (obj_copy m) x) with new. unfold write_update, view_write. rewrite Ed. change (set_gvk (obj_copy m) x) with new.
  assert (U : (let '(s0, _, e) := create_or_update hash has_status unconditional s [] (updated x new) (shell x new) in (s0, ignore_missing e)) =
    let '(c, _, r) := match vc_get (cl_views s) x (get_namespace new) (get_name new) with
      | None => vc_add hash (cl_views s) (updated x new (shell x new))
      | Some m => let '(c, es, r) := cl_update hash (cl_views s) (updated x new m) in (c, es, if decide (r = VNotFound) then VOk else r)
      end in (with_views s c, of_view r)).
  { unfold create_or_update. cbn [meanwhile tail]. unfold c_get. rewrite S1, S3, S4, Vx, typed_name, typed_namespace.
    replace (vc_get (cl_views s) x (get_namespace m) (get_name m)) with (w !! k).
    2:{ symmetry. assert (Hp : plain (obj_id m)) by apply Hm. assert (O := own_x). by apply (vc_get_sim hash (cl_views s) w x (get_namespace m) (get_name m)). }
    destruct (w !! k) as [old|] eqn:E; cbn [base] in *.
    - unfold update_both. cbn [meanwhile tail]. unfold c_update. rewrite G, Vx. destruct (cl_update _ _ _) as [[c es] r]. destruct r; cbn [of_view]; [|done..].
      destruct (mget _ "status") as [[]|]; try done. by rewrite G, Vx.
    - unfold c_create. cbn [meanwhile tail]. rewrite G, Vx. unfold vc_add. by rewrite G, Vx. }
  destruct (d_type d); try exact U.
  - unfold c_delete. cbn [meanwhile]. rewrite N1, Vx. destruct (vc_delete _ _) as [[c es] r]. by destruct r.
  - by destruct s.
Qed.
Lemma view_delete c w d : sim hash c w -> d_obj d = m -> d_type d = Deleted ->
  exists c' es, view_write hash x c d = (c', es, VOk)
   /\ (es = [] /\ c' = c /\ w !! k = None
       \/ exists old, w !! k = Some old /\ es = [(x, WDelete old)] /\ c' = drop_key c x (store_key old)).
Proof.
  intros H Ed Td. destruct Hm as (W & P & N & G & _). unfold view_write. rewrite Ed, Td. fold (typed x m). assert (F := typed_fit x m W G N). unfold vc_delete.
  rewrite (fit_gvk _ _ F). cbn [fst]. rewrite Vx, store_key_skey, (fit_id _ _ F). cbn [snd]. rewrite (sim_lookup hash c w) by done.
  destruct (w !! k) as [old|] eqn:E; eexists _, _; (split; [reflexivity|]); [|by left]. right. eauto.
Qed.

(** What is then in the view *)
Lemma value_sound c w : sim hash c w -> let v := value (w !! k) in
  fit k v /\ nonegzero (JMap v) /\ stored_ok hash x (store_key v) v /\ source_id v = k /\ reflects x m v.
Proof.
  intros H. destruct (base_storable c w H) as [Fb St]. assert (Wr := storable_writable _ _ St Vx). destruct St as (Fu & Hp & _). cbv zeta.
  assert (F := stamp_fit hash Hh k _ Fu). assert (G := fit_gvk _ _ Fu). cbn in G. split_and!; [done|apply stamp_nnz; apply Wr| |by apply fit_source|].
  - rewrite <- G at 1. rewrite <- (stamp_gvk hash). apply stamp_stored; [done|]. by rewrite G.
  - destruct (stamp_agree hash Hh k _ Fu) as [A1 A2]. destruct Hm as (W & P & N & Gx & V). assert (W' := typed_owf x m W). assert (N' : get_name new <> EmptyString) by (by rewrite typed_name).
    assert (I := set_gvk_is (obj_copy m) x). fold (typed x m) in I. assert (Fo := has_fine _ (fit_has _ _ Fb)). assert (Wo := fit_owf _ _ Fb).
    split; [by apply fit_source| |].
    + intros f Hf. rewrite !not_elem_of_cons in Hf. destruct Hf as (H1 & H2 & H3 & _). rewrite A1 by done. rewrite updated_get by done. by apply typed_get.
    + intros f j v Hf Ht. assert (Hf' : f = "labels"%string \/ f = "annotations"%string) by (rewrite !elem_of_cons in Hf; destruct Hf as [?|[?|Hf]]; [by left|by right|by apply elem_of_nil in Hf]).
      destruct (updated_tags x new (base x m (w !! k)) W' Wo Fo f Hf') as [T _]. specialize (T j). rewrite typed_tag, Ht in T. unfold tag in *. rewrite A2 by (destruct Hf'; by subst). exact T.
Qed.
Lemma named_meta m' s : meta m' "name" = Some (JStr s) -> s <> EmptyString -> (meta m' "namespace" = None \/ exists t, meta m' "namespace" = Some (JStr t)) -> is_Some (doc_id m').
Proof.
  unfold meta, doc_id. cbn [nested_get]. destruct (mget m' "metadata") as [[| | | | | |y]|]; try done. intros -> N [->|[t ->]]; cbn; rewrite decide_False by done; eauto.
Qed.
Lemma value_named c w : sim hash c w -> is_Some (doc_id (stripped (value (w !! k)))).
Proof.
  intros H. destruct (base_storable c w H) as [Fb (Fu & _)]. destruct (value_sound c w H) as (F & _). set (v := value (w !! k)) in *. destruct (stamp_agree hash Hh k _ Fu) as [_ A2]. fold v in A2.
  destruct Hm as (W & P & N & Gx & V). assert (W' := typed_owf x m W). assert (N' : get_name new <> EmptyString) by (by rewrite typed_name).
  destruct (updated_names x new (base x m (w !! k)) W' (fit_owf _ _ Fb) (has_fine _ (fit_has _ _ Fb))) as [U1 U2].
  assert (Es : forall f, f <> "uid"%string -> meta (stripped v) f = meta v f).
  { intros f Hf. unfold stripped. rewrite (fit_copy k) by done. unfold remove_uid. destruct (negb _ || _); [done|]. change (meta (put_meta v "uid" None) f = meta v f). rewrite put_meta_get; [by rewrite decide_False|apply F|by apply has_fine, F]. }
  apply (named_meta _ (get_name m)); [|done|].
  - rewrite Es, A2, U1, typed_name by done. unfold str_field. by rewrite decide_False.
  - rewrite Es, A2, U2, typed_namespace by done. unfold str_field. case_decide; eauto.
Qed.
(** If the metadata are only names *)
Lemma value_bare c w : sim hash c w -> bare m -> gvk_is m x -> meta m "name" = str_field (get_name m) -> meta m "namespace" = str_field (get_namespace m) ->
  (forall old, w !! k = Some old -> bare (stripped old)) -> stripped (value (w !! k)) = m.
Proof.
  intros H B I M1 M2 Bo. destruct (base_storable c w H) as [Fb St]. assert (Wr := storable_writable _ _ St Vx). destruct St as (Fu & Hp & _).
  destruct (value_sound c w H) as (F & _ & _ & _ & _). set (v := value (w !! k)) in *. destruct (stamp_agree hash Hh k _ Fu) as [A1 A2]. fold v in A1, A2.
  destruct Hm as (W & P & N & Gx & V). assert (W' := typed_owf x m W). assert (N' : get_name new <> EmptyString) by (by rewrite typed_name).
  assert (I' := set_gvk_is (obj_copy m) x). fold (typed x m) in I'. assert (Fo := has_fine _ (fit_has _ _ Fb)). assert (Wo := fit_owf _ _ Fb).
  assert (Uv := stamp_uid hash Hh k _ Fu Vx). fold v in Uv.
  assert (Es : stripped v = put_meta v "uid" None).
  { unfold stripped. rewrite (fit_copy k) by done. unfold remove_uid. rewrite (fit_gvk k v) by done. cbn [fst]. rewrite Vx. rewrite (proj2 (String.eqb_neq _ _)) by done. done. }
  assert (Hb : forall f, f <> "name"%string -> f <> "namespace"%string -> f <> "uid"%string -> meta (base x m (w !! k)) f = None).
  { intros f F1 F2 F3. destruct (w !! k) as [old|] eqn:E; cbn [base]; [|by apply shell_meta].
    destruct (sim_fit c w old H E) as (Fo' & No & So & Co). assert (Uo := Bo old eq_refl f F1 F2). rewrite <- Uo. unfold stripped. rewrite Co. unfold remove_uid. destruct (negb _ || _); [done|].
    change (meta old f = meta (put_meta old "uid" None) f). rewrite put_meta_get; [by rewrite decide_False|apply Fo'|by apply has_fine, Fo']. }
  rewrite Es. apply obj_ext.
  - by apply put_owf; [apply F|].
  - done.
  - destruct (fit_has _ _ F) as [y Ey]. unfold put_meta. cbn [nested_del]. rewrite Ey. rewrite mget_set_eq. eauto.
  - by apply name_has.
  - intros j Hj. rewrite put_get by done. rewrite A1 by done. rewrite updated_get by done.
    destruct (decide (j = "apiVersion"%string)) as [->|]; [by rewrite (proj2 I'), (proj2 I)|]. destruct (decide (j = "kind"%string)) as [->|]; [by rewrite (proj1 I'), (proj1 I)|]. by apply typed_get.
  - intros f. rewrite put_meta_get; [|apply F|by apply has_fine, F]. destruct (updated_names x new (base x m (w !! k)) W' Wo Fo) as [U1 U2].
    case_decide as D1; [subst; symmetry; by apply B|]. destruct (decide (f = "resourceVersion"%string)) as [->|D2].
    { assert (Er : meta v "resourceVersion" = meta (updated x new (base x m (w !! k))) "resourceVersion").
      { unfold v. destruct (stamp_char hash Hh k _ Fu) as [->|(_ & u & _ & ->)]; [done|]. rewrite put_meta_get; [done|apply Fu|by apply has_fine, Fu]. }
      rewrite Er. rewrite updated_meta; [rewrite Hb by done; symmetry; by apply B|done..|]. rewrite !not_elem_of_cons. split_and!; try done. apply not_elem_of_nil. }
    rewrite A2 by done. destruct (decide (f = "name"%string)) as [->|D3]; [by rewrite U1, M1, typed_name|]. destruct (decide (f = "namespace"%string)) as [->|D4]; [by rewrite U2, M2, typed_namespace|].
    destruct (updated_tag_fields x new (base x m (w !! k)) W' Wo Fo) as [T1 T2].
    rewrite (B f) by done. destruct (decide (f = "labels"%string)) as [->|D5].
    { rewrite T1. unfold merge_tags. rewrite typed_meta, (B "labels"%string) by done. cbn [string_map]. by rewrite fields_meta, Hb by done. }
    destruct (decide (f = "annotations"%string)) as [->|D6].
    { rewrite T2. unfold merge_tags at 1. rewrite typed_meta, (B "annotations"%string) by done. cbn [string_map]. unfold merge_tags. rewrite typed_meta, (B "labels"%string) by done. cbn [string_map]. by rewrite fields_meta, Hb by done. }
    rewrite updated_meta; [by apply Hb|done..|]. rewrite !not_elem_of_cons. split_and!; try done. apply not_elem_of_nil.
Qed.
End view.
