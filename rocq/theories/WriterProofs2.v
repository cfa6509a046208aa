(** Proofs about the target writer: what it does to the cluster. *)
From Verif Require Import WriterModel ZSetSpec OpsSpec GatherSpec ExecSpec JsonSpec CleanSpec PipelineSpec GroupSpec ValueSpec ViewSpec WriterSpec.
From Verif Require Import JsonProofs CleanProofs ReconcileProofs ObjProofs ValueProofs GroupProofs ViewProofs ViewProofs2 WriterProofs.

Lemma pretty_go_length (x : N) : forall s, (String.length s <= String.length (pretty_N_go x s))%nat.
Proof.
  induction (N.lt_wf_0 x) as [x _ IH]. intros s. destruct (decide (x = 0)%N) as [->|H]; [by rewrite pretty_N_go_0|].
  rewrite pretty_N_go_step by lia. etrans; [|apply IH; apply N.div_lt; lia]. cbn. lia.
Qed.
Lemma pretty_ne (x : N) : pretty x <> EmptyString.
Proof.
  unfold pretty, pretty_N. case_decide as H; [done|]. rewrite pretty_N_go_step by lia. intros E. assert (L := pretty_go_length (x `div` 10) (String (pretty_N_char (x `mod` 10)) "")). rewrite E in L. cbn in L. lia.
Qed.

(** ** UIDs and versions *)
Definition served (m : jobj) (u v : string) : jobj := set_version (set_uid m u) v.
Section served.
Variables (m : jobj) (u v : string).
Hypothesis Wm : owf m.
Hypothesis Fm : meta_fine m.
Lemma served_eq : served m u v = put_meta (put_meta m "uid" (str_field u)) "resourceVersion" (str_field v).
Proof. unfold served. by rewrite set_version_put, set_uid_put. Qed.
Lemma served_owf : owf (served m u v).
Proof. rewrite served_eq. apply put_owf; [|apply str_field_wf]. apply put_owf; [done|apply str_field_wf]. Qed.
Lemma served_get k : k <> "metadata"%string -> mget (served m u v) k = mget m k.
Proof. intros. rewrite served_eq. by rewrite !put_get. Qed.
Lemma served_meta f : meta (served m u v) f = if decide (f = "resourceVersion"%string) then str_field v else if decide (f = "uid"%string) then str_field u else meta m f.
Proof.
  rewrite served_eq. rewrite put_meta_get; [|apply put_owf; [done|apply str_field_wf]|by apply put_fine]. case_decide; [done|]. by rewrite put_meta_get.
Qed.
Lemma served_version : get_version (served m u v) = v.
Proof. unfold get_version. rewrite meta_str, served_meta. cbn -[str_field]. apply str_field_str. Qed.
Lemma served_uid : get_uid (served m u v) = u.
Proof. unfold get_uid. rewrite meta_str, served_meta. cbn -[str_field]. apply str_field_str. Qed.
Lemma served_id : obj_id (served m u v) = obj_id m.
Proof. apply meta_eq_id; rewrite served_meta; done. Qed.
Lemma served_is x : gvk_is m x -> gvk_is (served m u v) x.
Proof. intros [H1 H2]. split; by rewrite served_get. Qed.
Lemma served_fine : meta_fine (served m u v).
Proof. rewrite served_eq. by apply put_fine, put_fine. Qed.
Lemma served_has : (exists y, mget m "metadata" = Some (JMap y)) -> exists y, mget (served m u v) "metadata" = Some (JMap y).
Proof.
  intros [y E]. assert (F := served_fine). unfold meta_fine in F. rewrite served_eq in *. unfold put_meta, nested_set' in *. cbn [nested_set nested_del] in *. 
  destruct (str_field u), (str_field v); rewrite E; cbn; rewrite mget_set_eq; cbn; rewrite mget_set_eq; eauto.
Qed.
End served.
Lemma gvk_is_eq m x : gvk_ok x -> gvk_is m x -> obj_copy m = set_gvk m x.
Proof. intros H1 H2. unfold obj_copy. by rewrite (gvk_is_get m x). Qed.
Lemma copied_is m : obj_copy m = m -> gvk_is m (get_gvk m).
Proof. intros E. rewrite <- E at 1. apply copy_is. Qed.
Lemma str_meta m f : nested_str m ["metadata"; f] <> EmptyString -> meta m f = str_field (nested_str m ["metadata"; f]).
Proof.
  rewrite meta_str. destruct (meta m f) as [[]|]; try done. intros H. unfold str_field. by rewrite decide_False.
Qed.

(** ** Native objects *)
Section writer.
Variable hash : string -> string.
Variable has_status unconditional : gvk -> bool.
Notation commit := (@commit).
Notation cluster_ok := (cluster_ok hash).

Definition native (k : okey) (m : jobj) : Prop :=
  is_view_kind k.1 = false /\ owf m /\ source_id m = k /\ obj_copy m = m /\ get_version m <> EmptyString /\ get_uid m <> EmptyString.
Lemma native_insert s k m : native_ok s -> native k m -> native_ok (with_live s k m).
Proof. intros H Hm k' m'. unfold with_live. cbn [cl_live]. destruct (decide (k = k')) as [->|N]; [rewrite lookup_insert; by intros [= <-]|rewrite lookup_insert_ne by done; apply H]. Qed.
Lemma native_delete s k : native_ok s -> native_ok (Cluster (cl_views s) (delete k (cl_live s)) (cl_cached s) (cl_next s)).
Proof. intros H k' m'. cbn [cl_live]. rewrite lookup_delete_Some. intros [_ E]. by apply H. Qed.
Lemma uid_has m : get_uid m <> EmptyString -> exists y, mget m "metadata" = Some (JMap y).
Proof. unfold get_uid, nested_str. cbn [nested_get]. destruct (mget m "metadata") as [[]|]; try done. eauto. Qed.

(** An object that may be stored under [k]. *)
Record fit (k : okey) (m : jobj) : Prop := { fit_owf : owf m; fit_is : gvk_is m k.1; fit_ok : gvk_ok k.1; fit_id : obj_id m = k.2; fit_has : exists y, mget m "metadata" = Some (JMap y) }.
Lemma native_fit k m : native k m -> fit k m.
Proof.
  intros (_ & W & E & C & _ & U). split; [done|rewrite <- E; by apply copied_is|rewrite <- E; apply get_gvk_ok|by rewrite <- E|by apply uid_has].
Qed.
Lemma has_fine m : (exists y, mget m "metadata" = Some (JMap y)) -> meta_fine m.
Proof. intros [y E]. unfold meta_fine. by rewrite E. Qed.
Lemma fit_gvk k m : fit k m -> get_gvk m = k.1.
Proof. intros []. by apply gvk_is_get. Qed.
Lemma fit_source k m : fit k m -> source_id m = k.
Proof. intros H. unfold source_id. rewrite (fit_gvk k) by done. rewrite (fit_id _ _ H). by destruct k. Qed.
Lemma fit_key k m : fit k m -> obj_key m = k.
Proof. apply fit_source. Qed.
Lemma fit_copy k m : fit k m -> obj_copy m = m.
Proof. intros []. by eapply gvk_is_copy; [|apply owf_sorted|]. Qed.
Lemma served_fit k m u v : fit k m -> fit k (served m u v).
Proof.
  intros []. assert (F := has_fine _ fit_has0). split; [by apply served_owf|by apply served_is|done|by rewrite served_id|by apply served_has].
Qed.
Lemma served_native k m u v : is_view_kind k.1 = false -> fit k m -> u <> EmptyString -> v <> EmptyString -> native k (served m u v).
Proof.
  intros V H Hu Hv. assert (H' := served_fit k m u v H). assert (F := has_fine _ (fit_has _ _ H)). assert (W := fit_owf _ _ H).
  split_and!; [done|apply H'|by apply fit_source|by eapply fit_copy|by rewrite served_version|by rewrite served_uid].
Qed.
Lemma native_meta k m : native k m -> meta m "uid" = str_field (get_uid m) /\ meta m "resourceVersion" = str_field (get_version m).
Proof. intros (_ & _ & _ & _ & V & U). by split; apply str_meta. Qed.
Lemma set_field_fit k m v : fit k m -> jwf v -> fit k (mset m "status" v).
Proof.
  intros [W [I1 I2] O D [y E]] Hv. split; [by apply owf_set|split; by rewrite mget_set_ne|done| |by rewrite mget_set_ne by done; eauto].
  rewrite <- D. apply meta_eq_id; unfold meta; cbn [nested_get]; by rewrite mget_set_ne.
Qed.
Lemma del_field_fit k m : fit k m -> fit k (mdel m "status").
Proof.
  intros [W [I1 I2] O D [y E]]. split; [by apply owf_del|split; by rewrite mget_del_ne|done| |by rewrite mget_del_ne by done; eauto].
  rewrite <- D. apply meta_eq_id; unfold meta; cbn [nested_get]; by rewrite mget_del_ne.
Qed.
Lemma keep_status_fit k old m : owf old -> fit k m -> fit k (keep_status old m).
Proof. intros W H. unfold keep_status. destruct (mget old "status") eqn:E; [|by apply del_field_fit]. apply set_field_fit; [done|]. exact (owf_get _ _ _ W E). Qed.
Lemma keep_status_get old m k : owf m -> mget (keep_status old m) k = if decide (k = "status"%string) then mget old k else mget m k.
Proof.
  intros W. unfold keep_status. case_decide; subst.
  - destruct (mget old "status") eqn:E; [by rewrite mget_set_eq|]. by rewrite mget_del_eq by (by apply owf_sorted).
  - destruct (mget old "status") eqn:E; [by rewrite mget_set_ne by congruence|]. by rewrite mget_del_ne by congruence.
Qed.
Lemma keep_status_meta old m f : owf m -> meta (keep_status old m) f = meta m f.
Proof. intros W. unfold meta. cbn [nested_get]. by rewrite keep_status_get. Qed.

(** Two objects agree but for the UID and the version. *)
Definition agree (m m' : jobj) : Prop :=
  (forall k, k <> "metadata"%string -> mget m' k = mget m k) /\ (forall f, f <> "uid"%string -> f <> "resourceVersion"%string -> meta m' f = meta m f).
Lemma served_agree m u v : owf m -> meta_fine m -> agree m (served m u v).
Proof. intros W F. split; [intros; by apply served_get|]. intros. rewrite served_meta by done. by rewrite !decide_False. Qed.

(** What [commit] does *)
Lemma commit_spec s k old new : native_ok s -> cl_live s !! k = Some old -> fit k new ->
  let '(s', m') := commit s k old new in
  native_ok s' /\ cl_live s' !! k = Some m' /\ agree new m' /\ get_uid m' = get_uid old
  /\ cl_views s' = cl_views s /\ cl_cached s' = cl_cached s /\ (forall j, j <> k -> cl_live s' !! j = cl_live s !! j).
Proof.
  intros H E Hf. assert (No : native k old) by (by apply H). destruct No as (V & Wo & So & Co & Vo & Uo).
  unfold WriterModel.commit. set (n1 := set_version (set_uid new (get_uid old)) (get_version old)).
  assert (W := fit_owf _ _ Hf). assert (F := has_fine _ (fit_has _ _ Hf)). assert (A1 : agree new n1) by (by apply served_agree).
  case_decide as D.
  - split_and!; try done. by rewrite <- D in A1.
  - assert (E2 : set_version n1 (version_of s) = served new (get_uid old) (version_of s)).
    { assert (Wu : owf (set_uid new (get_uid old))) by (rewrite set_uid_put; apply put_owf; [done|apply str_field_wf]).
      assert (Fu : meta_fine (set_uid new (get_uid old))) by (rewrite set_uid_put; by apply put_fine).
      assert (Hv : version_of s <> EmptyString) by apply pretty_ne.
      apply obj_ext.
      - rewrite set_version_put. apply put_owf; [|apply str_field_wf]. by apply served_owf.
      - by apply served_owf.
      - apply uid_has. unfold get_uid. rewrite meta_str, set_version_put, put_meta_get; [|by apply served_owf|by apply served_fine]. rewrite decide_False by done.
        change n1 with (served new (get_uid old) (get_version old)). rewrite served_meta by done. rewrite decide_False, decide_True by done. by rewrite str_field_str.
      - apply served_has; [done|apply Hf].
      - intros j Hj. rewrite set_version_put, put_get by done. change n1 with (served new (get_uid old) (get_version old)). by rewrite !served_get.
      - intros f. rewrite set_version_put, put_meta_get; [|by apply served_owf|by apply served_fine]. change n1 with (served new (get_uid old) (get_version old)). rewrite !served_meta by done. by repeat case_decide. }
    rewrite E2. split_and!.
    + apply native_insert; [done|]. apply served_native; [done..|apply pretty_ne].
    + unfold with_live. cbn [cl_live]. by rewrite lookup_insert.
    + by apply served_agree.
    + by apply served_uid.
    + done.
    + done.
    + intros j Hj. unfold with_live. cbn [cl_live]. by rewrite lookup_insert_ne.
Qed.
(** Nothing is written if nothing changes. *)
Lemma commit_same s k old new : native_ok s -> cl_live s !! k = Some old -> fit k new -> agree old new -> commit s k old new = (s, old).
Proof.
  intros H E Hf [A1 A2]. assert (No : native k old) by (by apply H). assert (W := fit_owf _ _ Hf). assert (F := has_fine _ (fit_has _ _ Hf)).
  unfold WriterModel.commit. rewrite decide_True; [done|]. change (set_version (set_uid new (get_uid old)) (get_version old)) with (served new (get_uid old) (get_version old)).
  destruct (native_meta _ _ No) as [M1 M2]. apply obj_ext; [apply No|by apply served_owf|apply uid_has; apply No|apply served_has; [done|apply Hf]| |].
  - intros j Hj. rewrite served_get by done. symmetry. by apply A1.
  - intros f. rewrite served_meta by done. case_decide; [by subst|]. case_decide; [by subst|]. symmetry. by apply A2.
Qed.

(** ** Views *)
Lemma views_sim c : views_ok hash c -> exists w, sim hash c w.
Proof.
  intros (lister & ops & Hl & Ho & ->). assert (H := cache_run_sim hash lister Hl ops ∅ ∅ (sim_empty hash) Ho). destruct (cache_run hash lister ∅ ops) as [[c es] rs]. destruct (ideal_run hash ∅ ops) as [w rs']. exists w. by destruct H.
Qed.
Lemma cache_run_app lister os : forall os' c, (cache_run hash lister c (os ++ os')).1.1 = (cache_run hash lister (cache_run hash lister c os).1.1 os').1.1.
Proof.
  induction os as [|o os IH]; intros os' c; [done|]. cbn [app cache_run]. destruct (vstep hash lister c o) as [[c1 es] r]. specialize (IH os' c1).
  destruct (cache_run hash lister c1 (os ++ os')) as [[c2 es2] rs2]. destruct (cache_run hash lister c1 os) as [[c3 es3] rs3]. exact IH.
Qed.
Lemma views_step c o c' : views_ok hash c -> op_ok o -> (forall lister, (vstep hash lister c o).1.1 = c') -> views_ok hash c'.
Proof.
  intros (lister & ops & Hl & Ho & ->) Hok E. exists lister, (ops ++ [o]). split_and!; [done|apply Forall_app; split; [done|by constructor]|].
  rewrite cache_run_app. cbn [cache_run]. specialize (E lister). by destruct (vstep _ _ _ o) as [[c1 es] r].
Qed.
Lemma stored_view s w k : sim hash (cl_views s) w -> is_view_kind k.1 = true -> plain k.2 -> stored s k = w !! k.
Proof. intros H V P. destruct k as [x [ns n]]. unfold stored. cbn in *. rewrite V. by apply (vc_get_sim hash). Qed.
Lemma stored_native s k : is_view_kind k.1 = false -> stored s k = cl_live s !! k.
Proof. intros V. unfold stored. by rewrite V. Qed.
Lemma view_changed s c' w w' : sim hash (cl_views s) w -> sim hash c' w' -> forall k, proper k -> (is_view_kind k.1 = true -> w' !! k = w !! k) -> stored (with_views s c') k = stored s k.
Proof.
  intros H H' k P E. destruct (is_view_kind k.1) eqn:V.
  - rewrite (stored_view _ w'), (stored_view s w) by auto. by apply E.
  - by rewrite !stored_native.
Qed.
Lemma cluster_views s c : cluster_ok s -> views_ok hash c -> cluster_ok (with_views s c).
Proof. intros (H1 & H2 & H3) H. by split_and!. Qed.
Hypothesis Hh : forall t, hash t <> EmptyString.
Lemma new_uid_ne x ns n : new_uid hash x ns n <> EmptyString.
Proof. apply Hh. Qed.
Lemma stamp_char k m : fit k m -> stamp hash m = m \/ get_uid m = EmptyString /\ exists u, u <> EmptyString /\ stamp hash m = put_meta m "uid" (str_field u).
Proof.
  intros H. unfold stamp. rewrite (fit_copy k) by done. unfold with_uid. destruct (String.eqb (get_uid m) "") eqn:E.
  - apply String.eqb_eq in E. destruct (is_view_kind (get_gvk m)); cbn [negb orb]; [|by left]. right. split; [done|]. eexists. split; [|apply set_uid_put]. apply new_uid_ne.
  - left. by rewrite orb_true_r.
Qed.
Lemma stamp_agree k m : fit k m -> agree m (stamp hash m).
Proof.
  intros H. destruct (stamp_char k m H) as [->|(_ & u & _ & ->)]; [by split|]. assert (W := fit_owf _ _ H). assert (F := has_fine _ (fit_has _ _ H)). split; intros.
  - by apply put_get.
  - rewrite put_meta_get by done. by rewrite decide_False.
Qed.
Lemma stamp_uid k m : fit k m -> is_view_kind k.1 = true -> get_uid (stamp hash m) <> EmptyString.
Proof.
  intros H V. unfold stamp. rewrite (fit_copy k) by done. unfold with_uid. rewrite (fit_gvk k m) by done. rewrite V. cbn [negb orb]. destruct (String.eqb (get_uid m) "") eqn:E.
  - cbn [negb]. rewrite set_uid_put. unfold get_uid. rewrite meta_str, put_meta_get; [|apply H|apply has_fine, H]. rewrite decide_True by done. rewrite str_field_str. apply new_uid_ne.
  - cbn [negb]. by apply String.eqb_neq.
Qed.
Lemma stamp_fit k m : fit k m -> fit k (stamp hash m).
Proof.
  intros H. assert (A := stamp_agree k m H). assert (H' := H). destruct H' as [W I O D E]. split; [by apply stamp_owf|rewrite <- (fit_gvk k m) by done; apply stamp_is|done|by rewrite stamp_id|].
  destruct (stamp_char k m H) as [->|(_ & u & Hu & ->)]; [done|]. apply uid_has. unfold get_uid. rewrite meta_str, put_meta_get; [|done|by apply has_fine]. rewrite decide_True by done. by rewrite str_field_str.
Qed.

(** A change of one view *)
Lemma view_put s w c' k m : sim hash (cl_views s) w -> fit k m -> is_view_kind k.1 = true -> plain k.2 -> sim hash c' (<[source_id m := stamp hash m]> w) ->
  stored (with_views s c') k = Some (stamp hash m) /\ frame s (with_views s c') k.
Proof.
  intros H Hf V P H'. rewrite (fit_source k) in H' by done. split.
  - rewrite (stored_view _ (<[k:=stamp hash m]> w)) by done. by rewrite lookup_insert.
  - intros j N Pj. apply (view_changed s c' w (<[k:=stamp hash m]> w)); [done..|]. intros _. by rewrite lookup_insert_ne.
Qed.
Definition storable (k : okey) (m : jobj) : Prop := fit k m /\ plain k.2 /\ (is_view_kind k.1 = true -> own_kind k.1 /\ nonegzero (JMap m)).
Lemma storable_writable k m : storable k m -> is_view_kind k.1 = true -> writable m.
Proof. intros (F & P & N) V. split_and!; [apply F|by apply N|by rewrite (fit_id _ _ F)]. Qed.

(** What is stored after a write of [m] *)
Definition like (m m' : jobj) : Prop :=
  (forall j, j <> "metadata"%string -> j <> "status"%string -> mget m' j = mget m j) /\ (forall f, f <> "uid"%string -> f <> "resourceVersion"%string -> meta m' f = meta m f).
Lemma agree_like m m' : agree m m' -> like m m'.
Proof. intros [A1 A2]. split; [intros; by apply A1|done]. Qed.
Record wrote (s : cluster) (k : okey) (m : jobj) (st : option json) (m' : jobj) (s' : cluster) : Prop := {
  wr_ok : cluster_ok s';
  wr_stored : stored s' k = Some m';
  wr_fit : fit k m';
  wr_like : like m m';
  wr_status : mget m' "status" = st;
  wr_frame : frame s s' k }.
Lemma create_spec s k m : cluster_ok s -> storable k m -> stored s k = None ->
  exists s' m', c_create hash has_status s m = (s', None) /\ wrote s k m (if is_view_kind k.1 then mget m "status" else if has_status k.1 then None else mget m "status") m' s'.
Proof.
  intros Hs Hm E. assert (Hm' := Hm). destruct Hm' as (F & P & N). unfold c_create. rewrite (fit_gvk k m) by done. destruct (is_view_kind k.1) eqn:V.
  - destruct Hs as (_ & Hv & Hn). destruct (views_sim _ Hv) as [w Hw]. assert (Wm := storable_writable _ _ Hm V). destruct (vc_add_sim hash _ _ m Hw Wm) as (S1 & S2 & _).
    cbn [ideal_step] in *. rewrite (fit_gvk k m), V in S1, S2 by done. cbn [fst snd] in *. destruct (vc_add hash (cl_views s) m) as [[c es] r] eqn:Ec. cbn [fst snd] in *. subst r.
    destruct (view_put s w c k m) as [Q1 Q2]; [done..|]. eexists _, _. split; [reflexivity|]. split; try done.
    + apply cluster_views; [done|]. apply (views_step (cl_views s) (VCreate m)); [done..|]. intros l. cbn [vstep]. by rewrite Ec.
    + by apply stamp_fit.
    + by eapply agree_like, stamp_agree.
    + by apply (stamp_agree k).
  - rewrite (fit_key k m) by done. rewrite stored_native in E by done. rewrite E. eexists _, _. split; [reflexivity|]. set (m0 := if has_status k.1 then mdel m "status" else m).
    assert (F0 : fit k m0) by (unfold m0; destruct (has_status k.1); [by apply del_field_fit|done]). change (set_version (set_uid m0 (version_of s)) (version_of s)) with (served m0 (version_of s) (version_of s)).
    assert (W0 := fit_owf _ _ F0). assert (M0 := has_fine _ (fit_has _ _ F0)). destruct Hs as (_ & Hv & Hn). split.
    + split_and!; [done..|]. apply native_insert; [done|]. apply served_native; [done..|apply pretty_ne|apply pretty_ne].
    + rewrite stored_native by done. unfold with_live. cbn [cl_live]. by rewrite lookup_insert.
    + by apply served_fit.
    + split.
      * intros j J1 J2. rewrite served_get by done. unfold m0. destruct (has_status k.1); [by rewrite mget_del_ne by congruence|done].
      * intros f F1 F2. rewrite served_meta by done. rewrite !decide_False by done. unfold m0. destruct (has_status k.1); [|done]. unfold meta. cbn [nested_get]. by rewrite mget_del_ne.
    + rewrite served_get by done. unfold m0. destruct (has_status k.1); [|done]. apply mget_del_eq, owf_sorted, F.
    + intros j J1 J2. destruct (is_view_kind j.1) eqn:Vj; [|rewrite !stored_native by done; unfold with_live; cbn [cl_live]; by rewrite lookup_insert_ne]. unfold stored. by rewrite Vj.
Qed.

Lemma stored_spec s k old : cluster_ok s -> proper k -> k.2.2 <> EmptyString -> stored s k = Some old -> fit k old /\ get_uid old <> EmptyString /\ (is_view_kind k.1 = true -> stamp hash old = old /\ nonegzero (JMap old)).
Proof.
  intros (_ & Hv & Hn) P Nk E. destruct (is_view_kind k.1) eqn:V.
  - destruct (views_sim _ Hv) as [w Hw]. rewrite (stored_view s w) in E by auto. destruct k as [x i]. destruct (sim_w _ _ _ Hw _ _ _ E) as [E1 E2]. destruct (sim_c _ _ _ Hw _ _ _ E1) as [Ho _].
    assert (Cp := so_copy _ _ _ _ Ho). destruct Ho. assert (Eg : get_gvk old = x) by done. assert (Ei : obj_id old = i) by (exact (f_equal snd E2)).
    assert (F : fit (x, i) old).
    { split; [done|cbn; rewrite <- Eg; by apply copied_is|cbn; rewrite <- Eg; apply get_gvk_ok|done|]. apply name_has. cbn in Nk. rewrite <- Ei in Nk. exact Nk. }
    split_and!; [done| |done]. rewrite <- so_stamp. by apply (stamp_uid (x, i)).
  - rewrite stored_native in E by done. destruct (Hn _ _ E) as (N1 & N2 & N3 & N4 & N5 & N6). split; [by apply native_fit|]. done.
Qed.
(** The status after a write of [m] where there was [old] *)
Definition status_after (k : okey) (m old : jobj) : option json :=
  if is_view_kind k.1 then mget m "status"
  else if has_status k.1 then match mget m "status" with Some (JMap st) => Some (JMap st) | _ => mget old "status" end
  else mget m "status".
(** The failure of the write *)
Definition update_error (k : okey) (m : jobj) : status :=
  if is_view_kind k.1 || has_status k.1 then None else match mget m "status" with Some (JMap _) => Some ENotFound | _ => None end.
Definition versioned (k : okey) (m old : jobj) : Prop :=
  is_view_kind k.1 = true \/ get_version m = get_version old \/ get_version m = EmptyString /\ unconditional k.1 = true.
Lemma admits_ok k m old : fit k m -> get_version old <> EmptyString -> is_view_kind k.1 = false -> versioned k m old -> admits unconditional old m = None.
Proof.
  intros F Vo V [?|[E|[E U]]]; [congruence|..]; unfold admits.
  - rewrite E. rewrite (proj2 (String.eqb_neq _ _)) by done. by rewrite String.eqb_refl.
  - rewrite E. cbn. rewrite (fit_gvk k) by done. by rewrite U.
Qed.
Lemma live_frame s s' k : cl_views s' = cl_views s -> (forall j, j <> k -> cl_live s' !! j = cl_live s !! j) -> frame s s' k.
Proof. intros H1 H2 j J _. unfold stored. rewrite H1. destruct (is_view_kind j.1); [done|by apply H2]. Qed.
Lemma agree_fit k m m' : fit k m -> agree m m' -> owf m' -> (exists y, mget m' "metadata" = Some (JMap y)) -> fit k m'.
Proof.
  intros [W [I1 I2] O D E] [A1 A2] W' E'. split; [done|split; by rewrite A1|done| |done]. rewrite <- D. by apply meta_eq_id; apply A2.
Qed.
Lemma agree_trans m1 m2 m3 : agree m1 m2 -> agree m2 m3 -> agree m1 m3.
Proof. intros [A1 A2] [B1 B2]. split; intros; [rewrite B1, A1|rewrite B2, A2]; done. Qed.
Lemma like_trans m1 m2 m3 : like m1 m2 -> like m2 m3 -> like m1 m3.
Proof. intros [A1 A2] [B1 B2]. split; intros; [rewrite B1, A1|rewrite B2, A2]; done. Qed.
Lemma keep_status_like old m : owf m -> like m (keep_status old m).
Proof. intros W. split; intros; [rewrite keep_status_get by done; by rewrite decide_False|by apply keep_status_meta]. Qed.
Lemma frame_trans s s1 s2 k : frame s s1 k -> frame s1 s2 k -> frame s s2 k.
Proof. intros H1 H2 j J P. rewrite H2 by done. by apply H1. Qed.
Notation update_both := (update_both hash has_status unconditional).
Lemma update_spec s k m old : cluster_ok s -> storable k m -> k.2.2 <> EmptyString -> stored s k = Some old -> versioned k m old ->
  exists s' m' o, update_both s [] m = (s', [], o, update_error k m) /\ wrote s k m (status_after k m old) m' s' /\ (get_uid m = get_uid old -> meta m' "uid" = meta old "uid").
Proof.
  intros Hs Hm Nk E Hv. assert (Hm' := Hm). destruct Hm' as (F & P & N). assert (Pk : proper k) by (intros _; exact P). destruct (stored_spec s k old Hs Pk Nk E) as (Fo & Uo & So).
  unfold WriterModel.update_both. cbn [meanwhile tail]. unfold c_update, update_error, status_after. rewrite (fit_gvk k m) by done. destruct (is_view_kind k.1) eqn:V.
  - destruct Hs as (_ & Hvs & Hn). destruct (views_sim _ Hvs) as [w Hw]. assert (Wm := storable_writable _ _ Hm V). assert (Ow : own_kind (get_gvk m)) by (rewrite (fit_gvk k m) by done; by apply N).
    assert (Ew := E). rewrite (stored_view s w) in Ew by done. rewrite <- (fit_source k m F) in Ew.
    destruct (cl_update_sim hash _ _ m old Hw Wm Ow Ew) as (S1 & S2 & _). cbn [fst snd] in *. destruct (cl_update hash (cl_views s) m) as [[c es] r] eqn:Ec. cbn [fst snd] in *. subst r.
    destruct (view_put s w c k m) as [Q1 Q2]; [done..|]. exists (with_views s c), (stamp hash m), m. split.
    { cbn [of_view orb]. rewrite (fit_gvk k m), V by done. by destruct (mget m "status") as [[]|]. }
    split; [split; try done|].
    + apply cluster_views; [done|]. apply (views_step (cl_views s) (VUpdate m)); [done..|]. intros l. cbn [vstep]. by rewrite Ec.
    + by apply stamp_fit.
    + by eapply agree_like, stamp_agree.
    + by apply (stamp_agree k).
    + intros Eu. destruct (stamp_char k m F) as [->|(Eu' & _)]; [|congruence]. rewrite (str_meta m "uid"), (str_meta old "uid"); unfold get_uid in *; congruence.
  - rewrite (fit_key k m) by done. rewrite stored_native in E by done. rewrite E. destruct Hs as (Hh' & Hvs & Hn). assert (No : native k old) by (by apply Hn).
    rewrite (admits_ok k m old) by (done || apply No). set (m1 := if has_status k.1 then keep_status old m else m).
    assert (F1 : fit k m1) by (unfold m1; destruct (has_status k.1); [apply keep_status_fit; [apply No|done]|done]).
    assert (L1 : like m m1) by (unfold m1; destruct (has_status k.1); [apply keep_status_like, F|done]).
    assert (C := commit_spec s k old m1 Hn E F1). destruct (commit s k old m1) as [s1 m'] eqn:Ec. destruct C as (C1 & C2 & C3 & C4 & C5 & C6 & C7).
    assert (N1 : native k m') by (by apply C1). assert (F' := native_fit _ _ N1).
    assert (K1 : cluster_ok s1) by (split_and!; [done|by rewrite C5|done]). assert (R1 : frame s s1 k) by (by apply live_frame).
    assert (U1 : meta m' "uid" = meta old "uid") by (rewrite (proj1 (native_meta _ _ N1)), (proj1 (native_meta _ _ No)); by rewrite C4).
    assert (T1 : mget m' "status" = mget m1 "status") by (by apply C3).
    assert (T2 : mget m1 "status" = if has_status k.1 then mget old "status" else mget m "status").
    { unfold m1. destruct (has_status k.1); [|done]. rewrite keep_status_get by apply F. done. }
    cbn [orb]. destruct (match mget m "status" with Some (JMap _) => true | _ => false end) eqn:Em.
    + destruct (mget m "status") as [[| | | | | |st]|] eqn:Est; try done. rewrite (fit_gvk k m'), V by done.
      assert (Wst : jwf (JMap st)) by (exact (owf_get _ _ _ (fit_owf _ _ F) Est)). set (m2 := mset m' "status" (JMap st)). assert (F2 : fit k m2) by (by apply set_field_fit).
      unfold c_update_status. rewrite (fit_key k m2), C2 by done. rewrite (fit_gvk k m2) by done. destruct (has_status k.1) eqn:Hst.
      * assert (Gv : get_version m2 = get_version m') by (unfold m2, get_version, nested_str; cbn [nested_get]; by rewrite mget_set_ne).
        rewrite (admits_ok k m2 m') by (done || (right; left; done) || apply N1). set (m3 := keep_status m2 m'). assert (F3 : fit k m3) by (apply keep_status_fit; [apply F2|done]).
        assert (D := commit_spec s1 k m' m3 C1 C2 F3). destruct (commit s1 k m' m3) as [s2 m4]. destruct D as (D1 & D2 & D3 & D4 & D5 & D6 & D7). assert (N4 : native k m4) by (by apply D1).
        exists s2, m4, m2. split; [done|]. split; [split|].
        -- split_and!; [done|by rewrite D5, C5|done].
        -- by rewrite stored_native.
        -- by apply native_fit.
        -- eapply like_trans; [exact L1|]. eapply like_trans; [by apply agree_like|]. eapply like_trans; [|by apply agree_like]. apply keep_status_like, F'.
        -- rewrite (proj1 D3) by done. unfold m3. rewrite keep_status_get by apply F'. rewrite decide_True by done. unfold m2. by rewrite mget_set_eq.
        -- eapply frame_trans; [done|]. by apply live_frame.
        -- intros _. rewrite <- U1. rewrite (proj1 (native_meta _ _ N4)), (proj1 (native_meta _ _ N1)). by rewrite D4.
      * exists s1, m', m2. split; [done|]. split; [split|done]; try done.
        -- by rewrite stored_native.
        -- eapply like_trans; [exact L1|]. by apply agree_like.
        -- by rewrite T1, T2.
    + assert (Q : (match mget m "status" with Some (JMap st) => Some (JMap st) | _ => mget old "status" end) = mget old "status") by (by destruct (mget m "status") as [[]|]).
      exists s1, m', m'. split; [destruct (mget m "status") as [[]|]; by destruct (has_status k.1)|]. split; [split|done]; try done.
      * by rewrite stored_native.
      * eapply like_trans; [exact L1|]. by apply agree_like.
      * rewrite Q. by rewrite T1, T2.
Qed.

(** A write that changes nothing *)
Lemma update_same s k m old : cluster_ok s -> storable k m -> k.2.2 <> EmptyString -> stored s k = Some old -> versioned k m old ->
  like old m -> mget old "status" = status_after k m old -> (is_view_kind k.1 = true -> m = old) ->
  exists s' o, update_both s [] m = (s', [], o, update_error k m) /\ cluster_ok s' /\ same_stored s s'.
Proof.
  intros Hs Hm Nk E Hv L St Vw. assert (Hm' := Hm). destruct Hm' as (F & P & N). assert (Pk : proper k) by (intros _; exact P). destruct (stored_spec s k old Hs Pk Nk E) as (Fo & Uo & So).
  destruct (is_view_kind k.1) eqn:V.
  - assert (m = old) as -> by (by apply Vw). destruct (update_spec s k old old Hs Hm Nk E Hv) as (s' & m' & o & H1 & H2 & _). exists s', o. split; [done|]. split; [apply H2|]. intros j Pj.
    destruct (decide (j = k)) as [->|J]; [|by apply H2].
    unfold WriterModel.update_both in H1. cbn [meanwhile tail] in H1. unfold c_update in H1. rewrite (fit_gvk k old), V in H1 by done.
    destruct Hs as (_ & Hvs & Hn). destruct (views_sim _ Hvs) as [w Hw]. assert (Wm := storable_writable _ _ Hm V). assert (Ow : own_kind (get_gvk old)) by (rewrite (fit_gvk k old) by done; by apply N).
    assert (Ew := E). rewrite (stored_view s w) in Ew by done. rewrite <- (fit_source k old F) in Ew.
    destruct (cl_update_sim hash _ _ old old Hw Wm Ow Ew) as (S1 & S2 & _). cbn [fst snd] in *. destruct (cl_update hash (cl_views s) old) as [[c es] r] eqn:Ec. cbn [fst snd] in *. subst r.
    destruct (view_put s w c k old) as [Q1 Q2]; [done..|]. rewrite (proj1 (So eq_refl)) in Q1. cbn [of_view] in H1. rewrite (fit_gvk k old), V in H1 by done.
    rewrite E, <- Q1. by destruct (mget old "status") as [[]|]; injection H1 as <- _.
  - unfold WriterModel.update_both. cbn [meanwhile tail]. unfold c_update, update_error. rewrite (fit_gvk k m), V by done.
    rewrite (fit_key k m) by done. assert (E0 := E). rewrite stored_native in E by done. rewrite E. destruct Hs as (Hh' & Hvs & Hn). assert (No : native k old) by (by apply Hn).
    rewrite (admits_ok k m old) by (done || apply No). set (m1 := if has_status k.1 then keep_status old m else m).
    assert (F1 : fit k m1) by (unfold m1; destruct (has_status k.1); [apply keep_status_fit; [apply No|done]|done]).
    unfold status_after in St. rewrite V in St.
    assert (A1 : agree old m1).
    { split.
      - intros j J. unfold m1. destruct (decide (j = "status"%string)) as [->|J2].
        + destruct (has_status k.1); [by rewrite keep_status_get by apply F|done].
        + destruct (has_status k.1); [rewrite keep_status_get by apply F; rewrite decide_False by done|]; by apply L.
      - intros f J1 J2. unfold m1. destruct (has_status k.1); [rewrite keep_status_meta by apply F|]; by apply L. }
    rewrite (commit_same s k old m1) by done.
    assert (K : cluster_ok s) by (by split_and!). cbn [orb].
    destruct (match mget m "status" with Some (JMap _) => true | _ => false end) eqn:Em.
    + destruct (mget m "status") as [[| | | | | |st]|] eqn:Est; try done. rewrite (fit_gvk k old), V by done.
      assert (Wst : jwf (JMap st)) by (exact (owf_get _ _ _ (fit_owf _ _ F) Est)). set (m2 := mset old "status" (JMap st)). assert (F2 : fit k m2) by (by apply set_field_fit).
      unfold c_update_status. rewrite (fit_key k m2), E by done. rewrite (fit_gvk k m2) by done. destruct (has_status k.1) eqn:Hst.
      * assert (Gv : get_version m2 = get_version old) by (unfold m2, get_version, nested_str; cbn [nested_get]; by rewrite mget_set_ne).
        rewrite (admits_ok k m2 old) by (done || (right; left; done) || apply No). set (m3 := keep_status m2 old). assert (F3 : fit k m3) by (apply keep_status_fit; [apply F2|done]).
        rewrite (commit_same s k old m3); [by exists s, m2|done..|]. split.
        -- intros j J. unfold m3. rewrite keep_status_get by apply Fo. case_decide; [|done]. subst j. unfold m2. by rewrite mget_set_eq.
        -- intros f J1 J2. unfold m3. by rewrite keep_status_meta by apply Fo.
      * by exists s, m2.
    + exists s, old. split; [destruct (mget m "status") as [[]|]; by destruct (has_status k.1)|done].
Qed.

(** ** Deletion *)
Notation c_delete := (c_delete).
Lemma delete_spec s k m : cluster_ok s -> fit k m -> plain k.2 ->
  exists s', c_delete s m = (s', match stored s k with Some _ => None | None => Some ENotFound end) /\ cluster_ok s' /\ stored s' k = None /\ frame s s' k /\ cl_cached s' = cl_cached s.
Proof.
  intros Hs F P. unfold WriterModel.c_delete. rewrite (fit_gvk k m) by done. destruct (is_view_kind k.1) eqn:V.
  - assert (Hs' := Hs). destruct Hs as (_ & Hv & Hn). destruct (views_sim _ Hv) as [w Hw]. assert (Pm : plain (obj_id m)) by (by rewrite (fit_id _ _ F)). destruct (vc_delete_sim hash _ _ m Hw Pm) as (S1 & S2 & _).
    cbn [ideal_step] in *. rewrite (fit_gvk k m), V, (fit_source k m) in S1, S2 by done. rewrite (stored_view s w) by done.
    destruct (vc_delete (cl_views s) m) as [[c es] r] eqn:Ec. cbn [fst snd] in *.
    assert (Kc : cluster_ok (with_views s c)).
    { apply cluster_views; [done|]. apply (views_step (cl_views s) (VDelete m)); [done..|]. intros l. cbn [vstep]. by rewrite Ec. }
    exists (with_views s c). destruct (w !! k) as [o|] eqn:Ek; cbn [fst snd] in *; subst r; (split; [done|]); split_and!; try done.
    + rewrite (stored_view _ (delete k w)) by done. by rewrite lookup_delete.
    + intros j J Pj. apply (view_changed s c w (delete k w)); [done..|]. intros _. by rewrite lookup_delete_ne.
    + by rewrite (stored_view _ w).
    + intros j J Pj. by apply (view_changed s c w w).
  - rewrite (fit_key k m) by done. rewrite (stored_native s) by done. destruct (cl_live s !! k) as [o|] eqn:E.
    + destruct Hs as (H1 & H2 & H3). eexists. split; [reflexivity|]. split_and!; try done.
      * split_and!; [done..|by apply native_delete].
      * rewrite stored_native by done. cbn. by rewrite lookup_delete.
      * apply live_frame; [done|]. intros j J. cbn. by rewrite lookup_delete_ne.
    + exists s. split_and!; try done. by rewrite stored_native.
Qed.
End writer.
