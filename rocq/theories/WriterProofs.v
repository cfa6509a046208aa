(** Proofs about the target writer: the objects that it computes. *)
From Verif Require Import WriterModel ZSetSpec OpsSpec GatherSpec ExecSpec JsonSpec CleanSpec PipelineSpec GroupSpec ValueSpec ViewSpec WriterSpec.
From Verif Require Import JsonProofs CleanProofs ReconcileProofs ObjProofs ValueProofs GroupProofs ViewProofs ViewProofs2.

(** ** Metadata *)
Definition meta_fine (m : jobj) : Prop := map_or_none (mget m "metadata").
Definition put_meta (m : jobj) (f : string) (v : option json) : jobj :=
  match v with Some v => nested_set' m ["metadata"; f] v | None => nested_del m ["metadata"; f] end.
Definition str_field (s : string) : option json := if decide (s = EmptyString) then None else Some (JStr s).
Lemma set_name_put m s : set_name m s = put_meta m "name" (str_field s).
Proof. unfold set_name, str_field. by case_decide. Qed.
Lemma set_namespace_put m s : set_namespace m s = put_meta m "namespace" (str_field s).
Proof. unfold set_namespace, str_field. by case_decide. Qed.
Lemma set_version_put m s : set_version m s = put_meta m "resourceVersion" (str_field s).
Proof. unfold set_version, str_field. by case_decide. Qed.
Lemma set_uid_put m s : set_uid m s = put_meta m "uid" (str_field s).
Proof. unfold set_uid, str_field. by case_decide. Qed.
Lemma set_strings_put m f l : set_strings m f l = put_meta m f (Some (JMap l)).
Proof. done. Qed.
Lemma put_get m f v k : k <> "metadata"%string -> mget (put_meta m f v) k = mget m k.
Proof.
  intros Hk. unfold put_meta. destruct v as [v|]; [unfold nested_set'|]; cbn [nested_set nested_del]; destruct (mget m "metadata") as [[]|]; try done; cbn; by rewrite mget_set_ne.
Qed.
Lemma put_fine m f v : meta_fine m -> meta_fine (put_meta m f v).
Proof.
  unfold meta_fine, put_meta. intros H. destruct v as [v|]; [unfold nested_set'|]; cbn [nested_set nested_del]; destruct (mget m "metadata") as [[]|] eqn:E; try done; cbn [mbind option_bind default]; rewrite ?mget_set_eq; rewrite ?E; try done.
  all: cbn; rewrite mget_set_eq; done.
Qed.
Lemma put_meta_get m f v g : owf m -> meta_fine m -> meta (put_meta m f v) g = if decide (g = f) then v else meta m g.
Proof.
  unfold meta_fine, put_meta, meta. intros W H. destruct v as [v|].
  - unfold nested_set'. cbn [nested_set nested_get]. destruct (mget m "metadata") as [[]|] eqn:E; try done; cbn [mbind option_bind default id].
    + rewrite mget_set_eq. case_decide; subst; [by rewrite mget_set_eq|by rewrite mget_set_ne by congruence].
    + rewrite mget_set_eq. case_decide; subst; [by rewrite (mget_set_eq [])|by rewrite (mget_set_ne []) by congruence].
  - cbn [nested_del nested_get]. destruct (mget m "metadata") as [[]|] eqn:E; try done.
    + rewrite mget_set_eq. case_decide as D; [rewrite D; by rewrite mget_del_eq by (apply owf_sorted; exact (owf_get _ _ _ W E))|by rewrite mget_del_ne by congruence].
    + rewrite E. by case_decide.
Qed.
Lemma put_owf m f v : owf m -> match v with Some v => jwf v | None => True end -> owf (put_meta m f v).
Proof.
  intros W Hv. unfold put_meta. destruct v as [v|]; [unfold nested_set'|]; cbn [nested_set nested_del]; destruct (mget m "metadata") as [[]|] eqn:E; try done; cbn.
  - apply owf_set; [done|]. assert (jwf (JMap m0)) by (exact (owf_get _ _ _ W E)). by apply (owf_set m0).
  - apply owf_set; [done|]. apply (owf_set []); [apply owf_nil|done].
  - apply owf_set; [done|]. assert (jwf (JMap m0)) by (exact (owf_get _ _ _ W E)). by apply (owf_del m0).
Qed.
Lemma put_nnz m f v : owf m -> nonegzero (JMap m) -> match v with Some v => nonegzero v | None => True end -> nonegzero (JMap (put_meta m f v)).
Proof.
  intros W N Hv. assert (Hs := owf_sorted _ W). unfold put_meta. destruct v as [v|]; [unfold nested_set'|]; cbn [nested_set nested_del]; destruct (mget m "metadata") as [[]|] eqn:E; try done; cbn.
  - assert (jwf (JMap m0)) by (exact (owf_get _ _ _ W E)). apply nnz_set; [done..|]. apply nnz_set; [by apply owf_sorted|by eapply nnz_get|done].
  - apply nnz_set; [done..|]. by repeat constructor.
  - assert (jwf (JMap m0)) by (exact (owf_get _ _ _ W E)). apply nnz_set; [done..|]. apply nnz_del; [by apply owf_sorted|by eapply nnz_get].
Qed.
Lemma meta_str m f : nested_str m ["metadata"; f] = match meta m f with Some (JStr s) => s | _ => EmptyString end.
Proof. done. Qed.
Lemma name_has m : get_name m <> EmptyString -> exists x, mget m "metadata" = Some (JMap x).
Proof. unfold get_name, nested_str. cbn [nested_get]. destruct (mget m "metadata") as [[]|]; try done. eauto. Qed.
Lemma name_fine m : get_name m <> EmptyString -> meta_fine m.
Proof. intros (x & E)%name_has. unfold meta_fine. by rewrite E. Qed.
Lemma meta_eq_id m m' : meta m "name" = meta m' "name" -> meta m "namespace" = meta m' "namespace" -> obj_id m = obj_id m'.
Proof. unfold obj_id, get_name, get_namespace. rewrite !meta_str. by intros -> ->. Qed.
Lemma str_field_str s : match str_field s with Some (JStr t) => t | _ => EmptyString end = s.
Proof. unfold str_field. by case_decide. Qed.
Lemma str_field_wf s : match str_field s with Some v => jwf v | None => True end.
Proof. unfold str_field. case_decide; [done|constructor]. Qed.
Lemma str_field_nnz s : match str_field s with Some v => nonegzero v | None => True end.
Proof. unfold str_field. case_decide; [done|constructor]. Qed.

(** Objects are equal if their fields are. *)
Lemma obj_ext m m' : owf m -> owf m' -> (exists x, mget m "metadata" = Some (JMap x)) -> (exists x, mget m' "metadata" = Some (JMap x)) ->
  (forall k, k <> "metadata"%string -> mget m k = mget m' k) -> (forall f, meta m f = meta m' f) -> m = m'.
Proof.
  intros W W' (x & E) (x' & E') H1 H2. apply mget_ext; [by apply owf_sorted..|]. intros k. destruct (decide (k = "metadata"%string)) as [->|N]; [|by apply H1].
  rewrite E, E'. do 2 f_equal. apply mget_ext; [apply owf_sorted; exact (owf_get _ _ _ W E)|apply owf_sorted; exact (owf_get _ _ _ W' E')|].
  intros f. specialize (H2 f). unfold meta in H2. cbn [nested_get] in H2. by rewrite E, E' in H2.
Qed.

(** ** Fields *)
Lemma mget_filter (p : string -> bool) (m : jobj) k : mget (List.filter (fun kv => p kv.1) m) k = if p k then mget m k else None.
Proof.
  induction m as [|[k' v] m IH]; cbn; [by destruct (p k)|]. destruct (p k') eqn:E; cbn.
  - case_decide; [subst; by rewrite E|done].
  - case_decide; [subst; rewrite IH; by rewrite E|done].
Qed.
Lemma ksorted_filter (p : string * json -> bool) m : ksorted m -> ksorted (List.filter p m).
Proof.
  unfold ksorted. induction m as [|[k v] m IH]; [done|]. cbn [map fst List.filter]. intros H. apply StronglySorted_inv in H as [H1 H2]. destruct (p (k, v)); [|by apply IH].
  cbn [map fst]. constructor; [by apply IH|]. rewrite Forall_forall in *. intros x Hx. apply H2. apply elem_of_list_In, in_map_iff in Hx as ([k' v'] & <- & Hin).
  apply filter_In in Hin as [Hin _]. apply elem_of_list_In. by apply (in_map fst) in Hin.
Qed.
Lemma drop_get obj new k : mget (drop_fields obj new) k = if decide (k = "metadata"%string) then mget obj k else match mget new k with Some _ => mget obj k | None => None end.
Proof.
  unfold drop_fields. rewrite (mget_filter (fun k => String.eqb k "metadata" || match mget new k with Some _ => true | None => false end)). case_decide.
  - subst. done.
  - rewrite (proj2 (String.eqb_neq _ _)) by done. cbn. by destruct (mget new k).
Qed.
Lemma copy_fields_get new : forall obj k, ksorted new -> mget (copy_fields obj new) k =
  if decide (k = "metadata"%string) then mget obj k else match mget new k with Some v => Some v | None => mget obj k end.
Proof.
  unfold copy_fields. induction new as [|[k' v] new IH]; intros obj k Hs; [by case_decide|]. cbn [foldl fst snd mget].
  apply ksorted_cons in Hs as [Hs' Hn]. apply mget_lt in Hn. rewrite IH by done.
  destruct (String.eqb k' "metadata") eqn:E.
  - apply String.eqb_eq in E. subst k'. by case_decide.
  - apply String.eqb_neq in E. case_decide as D; [subst; by rewrite mget_set_ne by congruence|]. destruct (decide (k = k')) as [->|N].
    + by rewrite Hn, mget_set_eq.
    + by rewrite mget_set_ne by congruence.
Qed.
Lemma copy_fields_sorted new : forall obj, ksorted obj -> ksorted (copy_fields obj new).
Proof.
  unfold copy_fields. induction new as [|[k v] new IH]; intros obj H; [done|]. cbn. apply IH. destruct (String.eqb k "metadata"); [done|by apply ksorted_set].
Qed.
Definition fields (new obj : jobj) : jobj := copy_fields (drop_fields obj new) new.
Lemma fields_get new obj k : ksorted new -> mget (fields new obj) k = if decide (k = "metadata"%string) then mget obj k else mget new k.
Proof.
  intros H. unfold fields. rewrite copy_fields_get, drop_get by done. case_decide; [done|]. by destruct (mget new k).
Qed.
Lemma fields_sorted new obj : ksorted obj -> ksorted (fields new obj).
Proof. intros H. by apply copy_fields_sorted, ksorted_filter. Qed.
Lemma fields_owf new obj : owf new -> owf obj -> owf (fields new obj).
Proof.
  intros W W'. apply owf_iff. split; [by apply fields_sorted, owf_sorted|]. intros k v. rewrite fields_get by (by apply owf_sorted). case_decide; intros E; [exact (owf_get _ _ _ W' E)|exact (owf_get _ _ _ W E)].
Qed.
Lemma fields_nnz new obj : owf new -> owf obj -> nonegzero (JMap new) -> nonegzero (JMap obj) -> nonegzero (JMap (fields new obj)).
Proof.
  intros W W' N N'. apply nnz_iff; [by apply fields_sorted, owf_sorted|]. intros k v. rewrite fields_get by (by apply owf_sorted). case_decide; intros E; [exact (nnz_get _ _ _ N' E)|exact (nnz_get _ _ _ N E)].
Qed.
Lemma fields_meta new obj f : owf new -> meta (fields new obj) f = meta obj f.
Proof. intros W. unfold meta. cbn [nested_get]. by rewrite fields_get by (by apply owf_sorted). Qed.

(** ** Labels and annotations *)
Definition slookup (l : list (string * string)) (k : string) : option string := (list_to_map l : gmap string string) !! k.
Definition all_str (o : jobj) : Prop := Forall (fun kv => exists s, kv.2 = JStr s) o.
Lemma string_map_all o : all_str o -> exists l, string_map (Some (JMap o)) = Some l.
Proof.
  unfold string_map, all_str. induction 1 as [|[k v] o [s E] H [l IH]]; [by exists []|]. simpl in E. subst v. exists ((k, s) :: l). cbn. cbn in IH. by rewrite IH.
Qed.
Lemma string_map_get o l k : string_map (Some (JMap o)) = Some l -> mget o k = JStr <$> slookup l k.
Proof.
  unfold string_map, slookup. revert l. induction o as [|[k' v] o IH]; intros l E; [by injection E as <-|].
  cbn in E. destruct v; try done. cbn in E. destruct (mapM _ o) as [l'|] eqn:E'; [|done]. injection E as <-. cbn [mget list_to_map foldr fst snd].
  case_decide; [subst; by rewrite lookup_insert|]. rewrite lookup_insert_ne by congruence. by apply IH.
Qed.
Lemma string_map_keys o l : string_map (Some (JMap o)) = Some l -> map fst l = map fst o /\ all_str o.
Proof.
  unfold string_map. revert l. induction o as [|[k' v] o IH]; intros l E; [injection E as <-; by split; [|constructor]|].
  cbn in E. destruct v; try done. cbn in E. destruct (mapM _ o) as [l'|] eqn:E'; [|done]. injection E as <-. destruct (IH _ eq_refl) as [IH1 IH2]. split; [cbn; by f_equal|]. constructor; [eauto|done].
Qed.
Lemma strings_str l : all_str (strings l).
Proof. unfold strings, all_str. induction l; constructor; eauto. Qed.
Lemma mset_str o k s : all_str o -> all_str (mset o k (JStr s)).
Proof.
  unfold all_str. induction o as [|[k' v] o IH]; intros H; [by repeat constructor; eauto|]. cbn [mset]. inversion H; subst. 
  repeat case_match; repeat (constructor; eauto).
Qed.
Lemma strings_get l k : mget (strings l) k = JStr <$> slookup l k.
Proof.
  unfold strings, slookup. induction l as [|[a b] l IH]; [done|]. cbn [map mget fst snd list_to_map foldr]. case_decide; [subst; by rewrite lookup_insert|]. by rewrite lookup_insert_ne by congruence.
Qed.
Lemma add_strings_get new : forall acc : jobj, NoDup (map fst new) ->
  forall k, mget (foldl (fun acc kv => mset acc kv.1 (JStr kv.2)) acc new) k = match slookup new k with Some v => Some (JStr v) | None => mget acc k end.
Proof.
  induction new as [|[a b] new IH]; intros acc Nd k; [done|]. cbn [map fst] in Nd. apply NoDup_cons in Nd as [N1 N2]. cbn [foldl fst snd]. rewrite IH by done.
  unfold slookup. cbn [list_to_map foldr fst snd]. destruct (decide (k = a)) as [->|N].
  - rewrite lookup_insert. rewrite (proj1 (not_elem_of_list_to_map new a)); [|done]. by rewrite mget_set_eq.
  - rewrite lookup_insert_ne by congruence. destruct ((list_to_map new : gmap string string) !! k); [done|]. by rewrite mget_set_ne by congruence.
Qed.
Lemma add_strings_wf new : forall acc : jobj, owf acc -> owf (foldl (fun acc kv => mset acc kv.1 (JStr kv.2)) acc new).
Proof. induction new as [|[a b] new IH]; intros acc H; [done|]. cbn. apply IH, owf_set; [done|constructor]. Qed.
Lemma add_strings_nnz new : forall acc : jobj, ksorted acc -> nonegzero (JMap acc) -> nonegzero (JMap (foldl (fun acc kv => mset acc kv.1 (JStr kv.2)) acc new)).
Proof. induction new as [|[a b] new IH]; intros acc H N; [done|]. cbn. apply IH; [by apply ksorted_set|]. apply nnz_set; [done..|constructor]. Qed.
Lemma add_strings_str new : forall acc : jobj, all_str acc -> all_str (foldl (fun acc kv => mset acc kv.1 (JStr kv.2)) acc new).
Proof. induction new as [|[a b] new IH]; intros acc H; [done|]. cbn. by apply IH, mset_str. Qed.
Lemma sorted_nodup (m : jobj) : ksorted m -> NoDup (map fst m).
Proof.
  induction m as [|[k v] m IH]; [constructor|]. intros H. apply ksorted_cons in H as [H1 H2]. constructor; [|by apply IH].
  intros Hin. apply elem_of_list_fmap in Hin as ([k' v'] & E & Hin). cbn in E. subst k'. rewrite Forall_forall in H2. apply (slt_irrefl k). exact (H2 _ Hin).
Qed.
(** The labels (annotations) of [new] are among those of [m]. *)
Definition covers (m new : jobj) (f : string) : Prop :=
  match string_map (meta new f) with
  | None => True
  | Some l => exists o, meta m f = Some (JMap o) /\ all_str o /\ forall k v, slookup l k = Some v -> mget o k = Some (JStr v)
  end.
(** One of the two steps of [merge_metadata] *)
Definition merge_tags (f : string) (new obj : jobj) : jobj :=
  match string_map (meta new f) with Some l => put_meta obj f (Some (JMap (add_strings (default [] (string_map (meta obj f))) l))) | None => obj end.
Lemma merge_eq obj new : merge_metadata obj new = merge_tags "annotations" new (merge_tags "labels" new obj).
Proof. done. Qed.
Lemma string_map_map v l : string_map v = Some l -> exists o, v = Some (JMap o).
Proof. destruct v as [[]|]; try done. eauto. Qed.
Lemma owf_meta m f o : owf m -> meta m f = Some (JMap o) -> owf o.
Proof.
  unfold meta. cbn [nested_get]. intros W. destruct (mget m "metadata") as [[]|] eqn:E; try done. intros E'. 
  assert (W' : owf m0) by exact (owf_get _ _ _ W E). exact (owf_get _ _ _ W' E').
Qed.
Lemma string_map_nodup m f l : owf m -> string_map (meta m f) = Some l -> NoDup (map fst l).
Proof.
  intros W E. destruct (string_map_map _ _ E) as (o & Eo). rewrite Eo in E. apply string_map_keys in E as [-> _]. apply sorted_nodup, owf_sorted. by eapply owf_meta.
Qed.
Lemma strings_owf m f l : owf m -> string_map (meta m f) = Some l -> owf (strings l).
Proof.
  intros W E. destruct (string_map_map _ _ E) as (o & Eo). rewrite Eo in E. assert (strings l = o) as ->; [|by eapply owf_meta].
  unfold string_map in E. clear Eo W. revert l E. induction o as [|[k v] o IH]; intros l E; [by injection E as <-|].
  cbn in E. destruct v; try done. cbn in E. destruct (mapM _ o) as [l'|] eqn:E'; [|done]. injection E as <-. unfold strings. cbn. f_equal. by apply IH.
Qed.
Lemma all_str_nnz o : all_str o -> nonegzero (JMap o).
Proof.
  intros H. constructor. eapply Forall_impl; [exact H|]. intros [k v] [s E]. cbn in *. subst. constructor.
Qed.
Section merge_tags.
Variables (f : string) (new obj : jobj).
Hypothesis Wn : owf new.
Hypothesis Wo : owf obj.
Hypothesis Fo : meta_fine obj.
Let sum l : jobj := add_strings (default [] (string_map (meta obj f))) l.
Lemma old_strings_owf : owf (strings (default [] (string_map (meta obj f)))).
Proof. destruct (string_map (meta obj f)) as [l|] eqn:E; cbn; [by eapply strings_owf|apply owf_nil]. Qed.
Lemma sum_owf l : owf (sum l).
Proof. apply add_strings_wf, old_strings_owf. Qed.
Lemma sum_str l : all_str (sum l).
Proof. apply add_strings_str, strings_str. Qed.
Lemma merge_tags_owf : owf (merge_tags f new obj).
Proof. unfold merge_tags. destruct (string_map (meta new f)); [|done]. apply put_owf; [done|]. apply sum_owf. Qed.
Lemma merge_tags_nnz : nonegzero (JMap obj) -> nonegzero (JMap (merge_tags f new obj)).
Proof. intros N. unfold merge_tags. destruct (string_map (meta new f)); [|done]. apply put_nnz; [done..|]. apply all_str_nnz, sum_str. Qed.
Lemma merge_tags_fine : meta_fine (merge_tags f new obj).
Proof. unfold merge_tags. destruct (string_map (meta new f)); [|done]. by apply put_fine. Qed.
Lemma merge_tags_get k : k <> "metadata"%string -> mget (merge_tags f new obj) k = mget obj k.
Proof. intros H. unfold merge_tags. destruct (string_map (meta new f)); [|done]. by apply put_get. Qed.
Lemma merge_tags_meta g : g <> f -> meta (merge_tags f new obj) g = meta obj g.
Proof. intros H. unfold merge_tags. destruct (string_map (meta new f)); [|done]. rewrite put_meta_get by done. by rewrite decide_False. Qed.
Lemma merge_tags_tag k : tag (merge_tags f new obj) f k = match tag new f k with Some v => Some v | None => tag obj f k end.
Proof.
  unfold merge_tags. unfold tag at 2. destruct (string_map (meta new f)) as [l|] eqn:E; [|done]. fold (sum l).
  unfold tag at 1. rewrite put_meta_get, decide_True by done. destruct (string_map_all _ (sum_str l)) as (l' & E'). rewrite E'.
  assert (H := string_map_get _ _ k E'). unfold sum, add_strings in H. rewrite add_strings_get in H by exact (string_map_nodup _ _ _ Wn E). rewrite strings_get in H.
  fold (slookup l' k) (slookup l k). destruct (slookup l k) eqn:E2.
  - destruct (slookup l' k); cbn in H; congruence.
  - unfold tag. destruct (string_map (meta obj f)) as [l0|]; cbn in H.
    + fold (slookup l0 k). destruct (slookup l0 k), (slookup l' k); cbn in H; congruence.
    + change (slookup [] k) with (@None string) in H. destruct (slookup l' k); cbn in H; congruence.
Qed.
Lemma merge_tags_covers : covers (merge_tags f new obj) new f.
Proof.
  unfold covers, merge_tags. destruct (string_map (meta new f)) as [l|] eqn:E; [|done]. fold (sum l). exists (sum l). rewrite put_meta_get, decide_True by done.
  split; [done|]. split; [apply sum_str|]. intros k v Hk. unfold sum, add_strings. rewrite add_strings_get by exact (string_map_nodup _ _ _ Wn E). by rewrite Hk.
Qed.
Lemma merge_tags_fix : (exists x, mget obj "metadata" = Some (JMap x)) -> covers obj new f -> merge_tags f new obj = obj.
Proof.
  intros Hx. unfold covers. destruct (string_map (meta new f)) as [l|] eqn:E; [|by unfold merge_tags; rewrite E]. intros (o & Eo & So & Ho).
  assert (Hs : sum l = o).
  { apply mget_ext; [apply owf_sorted, sum_owf|apply owf_sorted; by eapply owf_meta|]. intros k. unfold sum, add_strings. rewrite add_strings_get by exact (string_map_nodup _ _ _ Wn E).
    destruct (slookup l k) eqn:E2; [by rewrite (Ho k s)|]. rewrite strings_get. rewrite Eo. destruct (string_map_all _ So) as (l' & El). rewrite El. symmetry. exact (string_map_get _ _ k El). }
  apply obj_ext; [apply merge_tags_owf|done| |done|intros; by apply merge_tags_get|].
  - unfold merge_tags. rewrite E. destruct Hx as [x Hx]. unfold put_meta, nested_set'. cbn [nested_set]. rewrite Hx. cbn. rewrite mget_set_eq. eauto.
  - intros g. destruct (decide (g = f)) as [->|N]; [|by apply merge_tags_meta]. unfold merge_tags. rewrite E. fold (sum l). rewrite put_meta_get, decide_True by done. by rewrite Hs.
Qed.
End merge_tags.
Lemma covers_meta m m' new f : meta m f = meta m' f -> covers m new f -> covers m' new f.
Proof. intros E. unfold covers. by rewrite E. Qed.

(** ** What the writer makes of an object *)
Lemma set_gvk_meta m x f : meta (set_gvk m x) f = meta m f.
Proof. unfold meta. cbn [nested_get]. by rewrite mget_set_gvk_ne. Qed.
Lemma set_gvk_fine m x : meta_fine m -> meta_fine (set_gvk m x).
Proof. unfold meta_fine. by rewrite mget_set_gvk_ne. Qed.
Section restore.
Variables (x : gvk) (m new : jobj).
Hypothesis Wm : owf m.
Hypothesis Fm : meta_fine m.
Hypothesis Nn : get_name new <> EmptyString.
Let r := restore x m new.
Lemma restore_eq : r = put_meta (put_meta (set_gvk m x) "name" (str_field (get_name new))) "namespace" (str_field (get_namespace new)).
Proof. unfold r, restore. by rewrite set_namespace_put, set_name_put. Qed.
Lemma restore_owf : owf r.
Proof. rewrite restore_eq. apply put_owf; [|apply str_field_wf]. apply put_owf; [|apply str_field_wf]. by apply set_gvk_owf. Qed.
Lemma restore_fine : meta_fine r.
Proof. rewrite restore_eq. by apply put_fine, put_fine, set_gvk_fine. Qed.
Lemma restore_nnz : nonegzero (JMap m) -> nonegzero (JMap r).
Proof.
  intros N. rewrite restore_eq. assert (W1 := set_gvk_owf _ x Wm). apply put_nnz; [|apply put_nnz; [done| |apply str_field_nnz]|apply str_field_nnz].
  - apply put_owf; [done|apply str_field_wf].
  - unfold set_gvk, set_kind, set_api_version. assert (Hs := owf_sorted _ Wm). repeat (apply nnz_set; [repeat apply ksorted_set; done| |constructor]). done.
Qed.
Lemma restore_get k : k <> "metadata"%string -> mget r k = mget (set_gvk m x) k.
Proof. intros H. rewrite restore_eq. by rewrite !put_get. Qed.
Lemma restore_meta f : meta r f = if decide (f = "namespace"%string) then str_field (get_namespace new) else if decide (f = "name"%string) then str_field (get_name new) else meta m f.
Proof.
  rewrite restore_eq. assert (W1 := set_gvk_owf _ x Wm). assert (F1 := set_gvk_fine _ x Fm). rewrite put_meta_get; [|apply put_owf; [done|apply str_field_wf]|by apply put_fine].
  case_decide; [done|]. rewrite put_meta_get by done. case_decide; [done|]. apply set_gvk_meta.
Qed.
Lemma restore_name : get_name r = get_name new.
Proof. unfold get_name at 1. rewrite meta_str, restore_meta. cbn -[str_field]. apply str_field_str. Qed.
Lemma restore_namespace : get_namespace r = get_namespace new.
Proof. unfold get_namespace at 1. rewrite meta_str, restore_meta. cbn -[str_field]. apply str_field_str. Qed.
Lemma restore_id : obj_id r = obj_id new.
Proof. unfold obj_id. by rewrite restore_name, restore_namespace. Qed.
Lemma restore_has : exists y, mget r "metadata" = Some (JMap y).
Proof. apply name_has. by rewrite restore_name. Qed.
Lemma restore_gvk : gvk_is r x.
Proof.
  assert (H := set_gvk_is m x). unfold gvk_is in *. by rewrite !restore_get by done.
Qed.
End restore.
Section updated.
Variables (x : gvk) (new obj : jobj).
Hypothesis Wn : owf new.
Hypothesis Gn : gvk_is new x.
Hypothesis Nn : get_name new <> EmptyString.
Hypothesis Wo : owf obj.
Hypothesis Fo : meta_fine obj.
Let a := merge_tags "labels" new (fields new obj).
Let b := merge_tags "annotations" new a.
Lemma updated_eq : updated x new obj = restore x b new.
Proof. done. Qed.
Lemma fields_fine : meta_fine (fields new obj).
Proof. unfold meta_fine. by rewrite fields_get by (by apply owf_sorted). Qed.
Lemma a_owf : owf a.
Proof. apply merge_tags_owf. by apply fields_owf. Qed.
Lemma a_fine : meta_fine a.
Proof. apply merge_tags_fine, fields_fine. Qed.
Lemma b_owf : owf b.
Proof. apply merge_tags_owf, a_owf. Qed.
Lemma b_fine : meta_fine b.
Proof. apply merge_tags_fine, a_fine. Qed.
Lemma updated_owf : owf (updated x new obj).
Proof. apply restore_owf, b_owf. Qed.
Lemma updated_nnz : nonegzero (JMap new) -> nonegzero (JMap obj) -> nonegzero (JMap (updated x new obj)).
Proof.
  intros N1 N2. apply restore_nnz; [apply b_owf|]. apply merge_tags_nnz; [apply a_owf|]. apply merge_tags_nnz; [by apply fields_owf|]. by apply fields_nnz.
Qed.
Lemma updated_gvk : gvk_is (updated x new obj) x.
Proof. apply restore_gvk. Qed.
Lemma updated_get k : k <> "metadata"%string -> mget (updated x new obj) k = mget new k.
Proof.
  intros H. destruct (decide (k = "apiVersion"%string)) as [->|N1]; [by rewrite (proj2 updated_gvk), (proj2 Gn)|].
  destruct (decide (k = "kind"%string)) as [->|N2]; [by rewrite (proj1 updated_gvk), (proj1 Gn)|].
  rewrite updated_eq, restore_get by done. unfold set_gvk, set_kind, set_api_version. rewrite !mget_set_ne by congruence. unfold b. rewrite merge_tags_get by done. unfold a. rewrite merge_tags_get by done.
  rewrite fields_get by (by apply owf_sorted). by rewrite decide_False.
Qed.
Lemma updated_name : get_name (updated x new obj) = get_name new.
Proof. apply restore_name; [apply b_owf|apply b_fine]. Qed.
Lemma updated_namespace : get_namespace (updated x new obj) = get_namespace new.
Proof. apply restore_namespace; [apply b_owf|apply b_fine]. Qed.
Lemma updated_id : obj_id (updated x new obj) = obj_id new.
Proof. apply restore_id; [apply b_owf|apply b_fine]. Qed.
Lemma updated_meta f : f ∉ ["labels"; "annotations"; "name"; "namespace"]%string -> meta (updated x new obj) f = meta obj f.
Proof.
  intros H. rewrite !not_elem_of_cons in H. destruct H as (H1 & H2 & H3 & H4 & _). rewrite updated_eq, restore_meta by (first [apply b_owf|apply b_fine]). rewrite !decide_False by done.
  unfold b. rewrite merge_tags_meta; [|apply a_owf|apply a_fine|done]. unfold a. rewrite merge_tags_meta; [|by apply fields_owf|apply fields_fine|done]. by apply fields_meta.
Qed.
Lemma updated_names : meta (updated x new obj) "name" = str_field (get_name new) /\ meta (updated x new obj) "namespace" = str_field (get_namespace new).
Proof. rewrite !updated_eq, !restore_meta by (first [apply b_owf|apply b_fine]). done. Qed.
Lemma updated_tag_fields : meta (updated x new obj) "labels" = meta a "labels" /\ meta (updated x new obj) "annotations" = meta b "annotations".
Proof.
  rewrite !updated_eq, !restore_meta by (first [apply b_owf|apply b_fine]). cbn. split; [|done]. apply merge_tags_meta; [apply a_owf|apply a_fine|done].
Qed.
Lemma updated_tags f : f = "labels"%string \/ f = "annotations"%string -> tags_on_top f new (Some obj) (updated x new obj) /\ covers (updated x new obj) new f.
Proof.
  destruct updated_tag_fields as [H1 H2]. intros [->| ->]; split.
  - intros k. unfold tag at 1. rewrite H1. fold (tag a "labels" k). unfold a. rewrite merge_tags_tag; [|done|by apply fields_owf|apply fields_fine]. unfold tag at 2 3. by rewrite fields_meta.
  - eapply covers_meta; [symmetry; exact H1|]. apply merge_tags_covers; [done|by apply fields_owf|apply fields_fine].
  - intros k. unfold tag at 1. rewrite H2. fold (tag b "annotations" k). unfold b. rewrite merge_tags_tag; [|done|apply a_owf|apply a_fine]. unfold tag at 2 3. unfold a. rewrite merge_tags_meta; [|by apply fields_owf|apply fields_fine|done]. by rewrite fields_meta.
  - eapply covers_meta; [symmetry; exact H2|]. apply merge_tags_covers; [done|apply a_owf|apply a_fine].
Qed.
Lemma updated_has : exists y, mget (updated x new obj) "metadata" = Some (JMap y).
Proof. apply name_has. by rewrite updated_name. Qed.
Lemma updated_meta_fix : (exists y, mget obj "metadata" = Some (JMap y)) -> meta obj "name" = str_field (get_name new) -> meta obj "namespace" = str_field (get_namespace new) ->
  covers obj new "labels" -> covers obj new "annotations" -> forall f, meta (updated x new obj) f = meta obj f.
Proof.
  intros Hh H2 H3 H4 H5 f. assert (Hf : exists y, mget (fields new obj) "metadata" = Some (JMap y)) by (by rewrite fields_get by (by apply owf_sorted)).
  assert (Wf : owf (fields new obj)) by (by apply fields_owf).
  assert (E2 : a = fields new obj).
  { unfold a. apply merge_tags_fix; [done..|apply fields_fine|done|]. eapply covers_meta; [|done]. by rewrite fields_meta. }
  assert (E3 : b = fields new obj).
  { unfold b. rewrite E2. apply merge_tags_fix; [done..|apply fields_fine|done|]. eapply covers_meta; [|done]. by rewrite fields_meta. }
  rewrite updated_eq, restore_meta by (first [apply b_owf|apply b_fine]). rewrite E3. clear E2 E3. rewrite fields_meta by done. case_decide as D; [by rewrite D|]. case_decide as D2; [by rewrite D2|]. done.
Qed.
End updated.
