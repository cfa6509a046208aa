(** Lemmas about objects: copying, UIDs, wrapping. *)
From Verif Require Import JsonModel ObjModel ExecModel PipelineModel ZSetSpec OpsSpec GatherSpec ExecSpec PipelineSpec.
From Verif Require Import JsonProofs ReconcileProofs.

(** ** GVKs *)
Lemma gv_noslash_parse g v : has_slash g = false -> has_slash v = false -> parse_gv (gv_string g v) = Some (g, v).
Proof.
  intros Hg Hv. unfold gv_string. destruct (decide (g = "")) as [->|Hne].
  - unfold parse_gv. case_decide as E.
    + destruct E as [->| ->]; done.
    + unfold has_slash in Hv. by destruct (split_slash v).
  - unfold parse_gv. rewrite decide_False.
    + rewrite split_app by done. by rewrite Hv.
    + destruct g as [|c g]; [done|]. intros [E|E]; [discriminate E|].
      change (String c (g +:+ "/" +:+ v) = "/"%string) in E. injection E as _ E. by destruct g.
Qed.
Lemma split_slash_noslash s a b : split_slash s = Some (a, b) -> has_slash a = false.
Proof.
  revert a b. induction s as [|c s IH]; intros a b E; [done|]. cbn [split_slash] in E.
  destruct (decide (c = "/"%char)) as [->|Hc]; [by injection E as <- <-|].
  destruct (split_slash s) as [[x y]|] eqn:Es; [|done]. simpl in E. injection E as <- <-.
  specialize (IH _ _ eq_refl). unfold has_slash in *. cbn [split_slash]. rewrite decide_False by done.
  by destruct (split_slash x) as [[? ?]|].
Qed.
Lemma parse_gv_noslash s g v : parse_gv s = Some (g, v) -> has_slash g = false /\ has_slash v = false.
Proof.
  unfold parse_gv. case_decide as E; [intros [= <- <-]; done|].
  destruct (split_slash s) as [[a b]|] eqn:Es.
  - destruct (has_slash b) eqn:Hb; [done|]. intros [= <- <-]. split; [|done]. by eapply split_slash_noslash.
  - intros [= <- <-]. split; [done|]. unfold has_slash. by rewrite Es.
Qed.
Lemma get_gvk_ok m : gvk_ok (get_gvk m).
Proof.
  unfold get_gvk, gvk_ok. destruct (parse_gv (get_api_version m)) as [[g v]|] eqn:E; [|reflexivity]. cbn [gvk_group gvk_version].
  apply parse_gv_noslash in E as [? ?]. by apply gv_noslash_parse.
Qed.

Lemma mget_set_gvk_kind m x : mget (set_gvk m x) "kind" = Some (JStr (gvk_kind x)).
Proof. unfold set_gvk, set_kind. by rewrite mget_set_eq. Qed.
Lemma mget_set_gvk_av m x : mget (set_gvk m x) "apiVersion" = Some (JStr (gv_string (gvk_group x) (gvk_version x))).
Proof. unfold set_gvk, set_kind, set_api_version. rewrite mget_set_ne by done. by rewrite mget_set_eq. Qed.
Lemma mget_set_gvk_ne m x k : k <> "kind"%string -> k <> "apiVersion"%string -> mget (set_gvk m x) k = mget m k.
Proof. intros. unfold set_gvk, set_kind, set_api_version. by rewrite !mget_set_ne by done. Qed.

(** The GVK fields as written by SetGroupVersionKind. *)
Definition gvk_is (m : jobj) (x : gvk) : Prop :=
  mget m "kind" = Some (JStr (gvk_kind x)) /\ mget m "apiVersion" = Some (JStr (gv_string (gvk_group x) (gvk_version x))).
Lemma set_gvk_is m x : gvk_is (set_gvk m x) x.
Proof. split; [apply mget_set_gvk_kind|apply mget_set_gvk_av]. Qed.
Lemma gvk_is_get m x : gvk_ok x -> gvk_is m x -> get_gvk m = x.
Proof.
  intros Hx [H1 H2]. unfold get_gvk, get_api_version, get_kind, nested_str. simpl. rewrite H1, H2. simpl.
  unfold gvk_ok in Hx. rewrite Hx. by destruct x.
Qed.
Lemma gvk_is_copy m x : gvk_ok x -> ksorted m -> gvk_is m x -> obj_copy m = m.
Proof.
  intros Hx S H. unfold obj_copy. rewrite (gvk_is_get m x Hx H). destruct H as [H1 H2].
  unfold set_gvk, set_kind, set_api_version. rewrite (mset_same m "apiVersion") by done. by rewrite mset_same.
Qed.
Lemma copy_gvk m : get_gvk (obj_copy m) = get_gvk m.
Proof. apply gvk_is_get; [apply get_gvk_ok|apply set_gvk_is]. Qed.
Lemma copy_is m : gvk_is (obj_copy m) (get_gvk m).
Proof. apply set_gvk_is. Qed.
Lemma copy_copy m : ksorted m -> obj_copy (obj_copy m) = obj_copy m.
Proof.
  intros S. apply (gvk_is_copy _ (get_gvk m)); [apply get_gvk_ok| |apply copy_is].
  unfold obj_copy, set_gvk, set_kind, set_api_version. by apply ksorted_set, ksorted_set.
Qed.

(** ** Names *)
Definition meta_eq (m m' : jobj) : Prop := mget m "metadata" = mget m' "metadata".
Lemma meta_id m m' : meta_eq m m' -> obj_id m = obj_id m' /\ get_uid m = get_uid m'.
Proof.
  unfold meta_eq, obj_id, get_namespace, get_name, get_uid, nested_str. simpl. by intros ->.
Qed.
Lemma copy_meta m : meta_eq (obj_copy m) m.
Proof. unfold meta_eq, obj_copy. by rewrite mget_set_gvk_ne. Qed.
Lemma copy_id m : obj_id (obj_copy m) = obj_id m.
Proof. by apply meta_id, copy_meta. Qed.
Lemma nested2_get m k v : nested_get m ["metadata"; k] = Some v -> exists x, mget m "metadata" = Some (JMap x) /\ mget x k = Some v.
Proof. simpl. destruct (mget m "metadata") as [[]|]; try done. eauto. Qed.

Lemma remove_uid_id m : obj_id (remove_uid m) = obj_id m.
Proof.
  unfold remove_uid. case_match; [done|]. unfold obj_id, get_namespace, get_name, nested_str.
  cbn [nested_del nested_get]. destruct (mget m "metadata") as [[]|] eqn:E; try by rewrite E.
  rewrite mget_set_eq. by rewrite !mget_del_ne by done.
Qed.
Lemma remove_uid_get m k : k <> "metadata"%string -> mget (remove_uid m) k = mget m k.
Proof.
  intros Hk. unfold remove_uid. case_match; [done|]. cbn [nested_del].
  destruct (mget m "metadata") as [[]|]; try done. by rewrite mget_set_ne.
Qed.
Lemma remove_uid_is m x : gvk_is m x -> gvk_is (remove_uid m) x.
Proof. intros [H1 H2]. split; by rewrite remove_uid_get. Qed.
Lemma remove_uid_owf m : owf m -> owf (remove_uid m).
Proof.
  intros W. unfold remove_uid. case_match; [done|]. cbn [nested_del].
  destruct (mget m "metadata") as [[]|] eqn:E; try done. apply owf_set; [done|].
  apply (owf_del m0). by eapply owf_get in E.
Qed.
Lemma set_gvk_owf m x : owf m -> owf (set_gvk m x).
Proof. intros W. unfold set_gvk, set_kind, set_api_version. apply owf_set; [apply owf_set|]; [done|constructor..]. Qed.
Lemma copy_owf m : owf m -> owf (obj_copy m).
Proof. apply set_gvk_owf. Qed.
Lemma remove_uid_no_uid m : get_uid m = ""%string -> remove_uid m = m.
Proof. intros E. unfold remove_uid. rewrite E. by rewrite orb_true_r. Qed.
Lemma remove_uid_idem m : owf m -> remove_uid (remove_uid m) = remove_uid m.
Proof.
  intros W. destruct (negb (is_view_kind (get_gvk m)) || String.eqb (get_uid m) "") eqn:E.
  { assert (remove_uid m = m) as ->; [|by unfold remove_uid; rewrite E]. unfold remove_uid. by rewrite E. }
  apply remove_uid_no_uid. unfold remove_uid. rewrite E. cbn [nested_del].
  apply orb_false_iff in E as [_ E]. unfold get_uid, nested_str in *. simpl in *.
  destruct (mget m "metadata") as [[| | | | | |mm]|] eqn:Em; try done.
  assert (ksorted mm) by (apply owf_sorted; by eapply owf_get in Em).
  rewrite mget_set_eq. by rewrite mget_del_eq.
Qed.

(** ** Stripped objects *)
Lemma stripped_id m : obj_id (stripped m) = obj_id m.
Proof. unfold stripped. by rewrite remove_uid_id, copy_id. Qed.
Lemma stripped_is m : gvk_is (stripped m) (get_gvk m).
Proof. unfold stripped. apply remove_uid_is, copy_is. Qed.
Lemma stripped_gvk m : get_gvk (stripped m) = get_gvk m.
Proof. apply gvk_is_get; [apply get_gvk_ok|apply stripped_is]. Qed.
Lemma stripped_source m : source_id (stripped m) = source_id m.
Proof. unfold source_id. by rewrite stripped_gvk, stripped_id. Qed.
Lemma stripped_owf m : owf m -> owf (stripped m).
Proof. intros. by apply remove_uid_owf, copy_owf. Qed.
Lemma stripped_copy m : owf m -> obj_copy (stripped m) = stripped m.
Proof.
  intros W. eapply gvk_is_copy; [apply get_gvk_ok| |apply stripped_is]. by apply owf_sorted, stripped_owf.
Qed.
Lemma stripped_remove m : owf m -> remove_uid (stripped m) = stripped m.
Proof. intros W. unfold stripped. apply remove_uid_idem. by apply copy_owf. Qed.
Lemma stripped_idem m : owf m -> stripped (stripped m) = stripped m.
Proof. intros W. unfold stripped at 1. by rewrite stripped_copy, stripped_remove. Qed.

(** ** Wrapping results *)
Lemma set_content_nil m : set_content [] m =
  nested_del (nested_del (set_gvk m (GVK "" "" "")) ["metadata"; "namespace"]) ["metadata"; "name"].
Proof. done. Qed.
Lemma nested_del2 m x k : mget m "metadata" = Some (JMap x) -> nested_del m ["metadata"; k] = mset m "metadata" (JMap (mdel x k)).
Proof. intros E. cbn [nested_del]. by rewrite E. Qed.
Lemma nested_set2 m x k v : mget m "metadata" = Some (JMap x) -> nested_set' m ["metadata"; k] v = mset m "metadata" (JMap (mset x k v)).
Proof. intros E. unfold nested_set'. cbn [nested_set]. by rewrite E. Qed.
Lemma doc_id_meta m i : doc_id m = Some i -> exists x, mget m "metadata" = Some (JMap x) /\ i.2 <> ""%string.
Proof.
  unfold doc_id. destruct (mget m "metadata") as [[]|]; try done. intros (ns & _ & E)%bind_Some.
  destruct (mget m0 "name") as [[]|]; try done. case_decide; [done|]. injection E as <-. eauto.
Qed.
Lemma set_meta_get m k v : mget (mset m "metadata" v) k = if decide (k = "metadata"%string) then Some v else mget m k.
Proof. case_decide; subst; [by rewrite mget_set_eq|by rewrite mget_set_ne]. Qed.

Definition meta_of (x : jobj) (i : oname) : jobj :=
  let y := mset (mdel (mdel x "namespace") "name") "name" (JStr i.2) in
  if decide (i.1 = ""%string) then mdel y "namespace" else mset y "namespace" (JStr i.1).
Lemma encapsulate_get target m i : ksorted m -> doc_id m = Some i ->
  exists x, mget m "metadata" = Some (JMap x)
    /\ encapsulate target m i.1 i.2 = mset (set_gvk m target) "metadata" (JMap (meta_of x i)).
Proof.
  intros S Hi. destruct (doc_id_meta m i Hi) as (x & Hx & Hn). exists x. split; [done|].
  unfold encapsulate. rewrite set_content_nil.
  set (m1 := set_gvk m (GVK "" "" "")). assert (H1 : mget m1 "metadata" = Some (JMap x)) by (unfold m1; by rewrite mget_set_gvk_ne).
  rewrite (nested_del2 m1 x) by done. erewrite nested_del2 by apply mget_set_eq.
  assert (S1 : ksorted m1) by (unfold m1, set_gvk, set_kind, set_api_version; by apply ksorted_set, ksorted_set).
  rewrite mset_set by done.
  set (x1 := mdel (mdel x "namespace") "name"). set (m2 := mset m1 "metadata" (JMap x1)).
  assert (H2 : mget m2 "metadata" = Some (JMap x1)) by apply mget_set_eq.
  assert (S2 : ksorted m2) by (by apply ksorted_set).
  set (m3 := set_gvk m2 target). assert (H3 : mget m3 "metadata" = Some (JMap x1)) by (unfold m3; by rewrite mget_set_gvk_ne).
  assert (S3 : ksorted m3) by (unfold m3, set_gvk, set_kind, set_api_version; by apply ksorted_set, ksorted_set).
  unfold set_name. rewrite decide_False by done. rewrite (nested_set2 m3 x1) by done.
  set (x2 := mset x1 "name" (JStr i.2)). set (m4 := mset m3 "metadata" (JMap x2)).
  assert (H4 : mget m4 "metadata" = Some (JMap x2)) by apply mget_set_eq.
  assert (E : set_namespace m4 i.1 = mset m3 "metadata" (JMap (meta_of x i))).
  { unfold set_namespace, meta_of. fold x1. fold x2. case_decide.
    - rewrite (nested_del2 m4 x2) by done. unfold m4. by rewrite mset_set.
    - rewrite (nested_set2 m4 x2) by done. unfold m4. by rewrite mset_set. }
  rewrite E.
  assert (K : forall a, ksorted a -> forall g, ksorted (set_gvk a g)) by (intros; unfold set_gvk, set_kind, set_api_version; by apply ksorted_set, ksorted_set).
  apply mget_ext; [by apply ksorted_set|apply ksorted_set; by apply K|].
  intros k. rewrite !set_meta_get. case_decide; [done|]. unfold m3.
  destruct (decide (k = "kind"%string)) as [->|]; [by rewrite !mget_set_gvk_kind|].
  destruct (decide (k = "apiVersion"%string)) as [->|]; [by rewrite !mget_set_gvk_av|].
  rewrite !mget_set_gvk_ne by done. unfold m2. rewrite set_meta_get, decide_False by done.
  unfold m1. by rewrite mget_set_gvk_ne.
Qed.
Lemma meta_of_owf x i : owf x -> owf (meta_of x i).
Proof.
  intros W. unfold meta_of. case_decide.
  - apply owf_del, owf_set; [|constructor]. by apply owf_del, owf_del.
  - apply owf_set; [|constructor]. apply owf_set; [|constructor]. by apply owf_del, owf_del.
Qed.
Lemma meta_of_names x i : ksorted x ->
  mget (meta_of x i) "name" = Some (JStr i.2)
  /\ mget (meta_of x i) "namespace" = if decide (i.1 = ""%string) then None else Some (JStr i.1).
Proof.
  intros S. unfold meta_of. case_decide.
  - split; [rewrite mget_del_ne by done; apply mget_set_eq|]. apply mget_del_eq.
    by apply ksorted_set, ksorted_del, ksorted_del.
  - split; [rewrite mget_set_ne by done; apply mget_set_eq|]. apply mget_set_eq.
Qed.
Lemma encapsulate_ok target m i : owf m -> gvk_ok target -> doc_id m = Some i ->
  let e := encapsulate target m i.1 i.2 in
  obj_id e = i /\ gvk_is e target /\ owf e /\ obj_copy e = e /\ doc_id e = Some i.
Proof.
  intros W Hg Hi. destruct (encapsulate_get target m i) as (x & Hx & ->); [by apply owf_sorted|done|].
  assert (Wx : owf x) by (by eapply owf_get in Hx). destruct (meta_of_names x i (owf_sorted _ Wx)) as [N1 N2].
  destruct (doc_id_meta m i Hi) as (_ & _ & Hn).
  assert (We : owf (mset (set_gvk m target) "metadata" (JMap (meta_of x i)))).
  { apply owf_set; [by apply set_gvk_owf|]. by apply meta_of_owf. }
  assert (Ge : gvk_is (mset (set_gvk m target) "metadata" (JMap (meta_of x i))) target).
  { split; rewrite mget_set_ne by done; [apply mget_set_gvk_kind|apply mget_set_gvk_av]. }
  split_and!; [|done|done|eapply gvk_is_copy; [exact Hg|by apply owf_sorted|done]|].
  - unfold obj_id, get_namespace, get_name, nested_str. cbn [nested_get]. rewrite mget_set_eq, N1, N2.
    destruct i as [ns nm]. simpl. destruct (decide (ns = ""%string)) as [->|]; done.
  - unfold doc_id. rewrite mget_set_eq, N1, N2. destruct i as [ns nm]. simpl in *.
    destruct (decide (ns = "")) as [->|]; simpl; by rewrite decide_False.
Qed.
