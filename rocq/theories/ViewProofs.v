(** Proofs about the storage of the view cache (C29, C50). *)
From Verif Require Import ViewModel ZSetSpec OpsSpec GatherSpec ExecSpec JsonSpec CleanSpec PipelineSpec GroupSpec ValueSpec ViewSpec.
From Verif Require Import JsonProofs CleanProofs ReconcileProofs ObjProofs ValueProofs GroupProofs.

(** ** Equality without negative zeros *)
Lemma SFeqb_nnz a b : a <> S754_zero true -> b <> S754_zero true -> SFeqb a b = true -> a = b.
Proof.
  intros Ha Hb E. destruct a as [[]|[]| |s m e]; try done.
  - destruct b as [[]|[]| |[] ? ?]; done.
  - destruct b as [[]|[]| |[] ? ?]; done.
  - destruct b as [[]|[]| |[] ? ?]; done.
  - by apply SFeqb_finite in E.
Qed.
Lemma nnz_get m k v : nonegzero (JMap m) -> mget m k = Some v -> nonegzero v.
Proof. intros H E. inversion H as [| | | | | |? Hl]; subst. rewrite Forall_forall in Hl. by apply (Hl (k, v)), mget_in. Qed.
Lemma nnz_item l i v : nonegzero (JList l) -> l !! i = Some v -> nonegzero v.
Proof. intros H E. inversion H as [| | | | |? Hl|]; subst. by eapply Forall_lookup_1. Qed.
Lemma nnz_iff m : ksorted m -> nonegzero (JMap m) <-> forall k v, mget m k = Some v -> nonegzero v.
Proof.
  intros Hs. split; [intros H k v; by apply nnz_get|]. intros H. constructor. apply Forall_forall. intros [k v] Hin. simpl.
  apply (H k). by apply in_mget.
Qed.
Lemma go_equal_nnz v : forall w, nonegzero v -> nonegzero w -> go_equal v w = true -> v = w.
Proof.
  induction v as [|bo|n|f|s|l IHl|m IHm] using json_rect'; intros w C D E; destruct w as [|bo'|n'|f'|s'|l'|m']; try done.
  - simpl in E. apply eqb_prop in E. by subst.
  - simpl in E. apply Z.eqb_eq in E. by subst.
  - simpl in E. inversion C; subst. inversion D; subst. f_equal. by apply SFeqb_nnz.
  - simpl in E. apply String.eqb_eq in E. by subst.
  - f_equal. inversion C as [| | | | |? C'|]; subst. inversion D as [| | | | |? D'|]; subst. clear C D.
    revert l' D' E. induction l as [|v l IH]; intros [|w l'] D' E; try done.
    apply Forall_cons in C' as [? ?], D' as [? ?], IHl as [? ?]. simpl in E. apply andb_true_iff in E as [E1 E2].
    f_equal; [by auto|]. by apply IH.
  - f_equal. inversion C as [| | | | | |? C']; subst. inversion D as [| | | | | |? D']; subst. clear C D.
    revert m' D' E. induction m as [|[k v] m IH]; intros [|[k' w] m'] D' E; try done.
    apply Forall_cons in C' as [? ?], D' as [? ?], IHm as [? ?]. cbn [fst snd] in *. simpl in E. apply andb_true_iff in E as [E1 E2].
    apply andb_true_iff in E1 as [E0 E1]. apply String.eqb_eq in E0. subst. f_equal; [f_equal; by auto|]. by apply IH.
Qed.
Lemma nnz_set m k v : ksorted m -> nonegzero (JMap m) -> nonegzero v -> nonegzero (JMap (mset m k v)).
Proof.
  intros Hs H Hv. apply nnz_iff; [by apply ksorted_set|]. intros j w. destruct (decide (j = k)) as [->|N].
  - rewrite mget_set_eq. by intros [= <-].
  - rewrite mget_set_ne by congruence. by apply nnz_get.
Qed.
Lemma nnz_del m k : ksorted m -> nonegzero (JMap m) -> nonegzero (JMap (mdel m k)).
Proof.
  intros Hs H. apply nnz_iff; [by apply ksorted_del|]. intros j w. destruct (decide (j = k)) as [->|N].
  - by rewrite mget_del_eq.
  - rewrite mget_del_ne by congruence. by apply nnz_get.
Qed.
Lemma patch_nnz m : forall o, jwf o -> jwf m -> nonegzero o -> nonegzero m -> nonegzero (patch o m).
Proof.
  induction m as [|b|n|f|s|lm IH|mm IH] using json_rect'; intros o Wo Wm Ho Hm;
    (match goal with |- context [patch o ?x] => destruct (patch_cases o x) as [->|[(lo & lm' & -> & E & -> & _)|(mo & mm' & -> & E & -> & _)]] end; [done|try done..]).
  - injection E as <-. constructor. apply Forall_lookup. intros i v. rewrite items_get. destruct (lm !! i) as [x|] eqn:Ex.
    + intros [= <-]. destruct (lo !! i) as [y|] eqn:Ey; [|exact (nnz_item _ _ _ Hm Ex)]. rewrite Forall_lookup in IH.
      exact (IH _ _ Ex _ (jwf_list _ _ _ Wo Ey) (jwf_list _ _ _ Wm Ex) (nnz_item _ _ _ Ho Ey) (nnz_item _ _ _ Hm Ex)).
    + intros Ey. exact (nnz_item _ _ _ Ho Ey).
  - injection E as <-. apply nnz_iff; [apply entries_sorted; by apply owf_sorted|]. intros k v. rewrite entries_get by (by apply owf_sorted). unfold entry.
    destruct (mget mm k) as [w|] eqn:Ew; [|intros Ev; exact (nnz_get _ _ _ Ho Ev)]. assert (Hw : nonegzero w) by exact (nnz_get _ _ _ Hm Ew).
    assert (Ww : jwf w) by exact (owf_get _ _ _ Wm Ew).
    intros Ev. assert (G : v = match mget mo k with None => w | Some vo => patch vo w end) by (destruct w; congruence). subst v.
    destruct (mget mo k) as [vo|] eqn:Eo; [|done]. rewrite Forall_forall in IH.
    apply (IH (k, w)); [by apply mget_in|exact (owf_get _ _ _ Wo Eo)|done|exact (nnz_get _ _ _ Ho Eo)|done].
Qed.

(** ** Stamped objects *)
Section view.
Variable hash : string -> string.
Notation stamp := (stamp hash).

Lemma with_uid_get m k : k <> "metadata"%string -> mget (with_uid hash m) k = mget m k.
Proof.
  intros Hk. unfold with_uid. case_match; [done|]. unfold set_uid, nested_set'. case_decide; cbn [nested_del nested_set].
  - destruct (mget m "metadata") as [[]|]; try done. by rewrite mget_set_ne.
  - destruct (mget m "metadata") as [[]|]; simpl; try done; by rewrite mget_set_ne.
Qed.
Lemma with_uid_meta m x : mget m "metadata" = Some (JMap x) -> exists y, mget (with_uid hash m) "metadata" = Some (JMap y)
  /\ forall k, k <> "uid"%string -> mget y k = mget x k.
Proof.
  intros E. unfold with_uid. case_match; [by exists x|]. unfold set_uid. case_decide.
  - rewrite (nested_del2 _ x) by done. exists (mdel x "uid"). rewrite mget_set_eq. split; [done|]. intros k Hk. by rewrite mget_del_ne.
  - rewrite (nested_set2 _ x) by done. eexists. rewrite mget_set_eq. split; [done|]. intros k Hk. by rewrite mget_set_ne.
Qed.
Lemma with_uid_nonmap m : (forall x, mget m "metadata" <> Some (JMap x)) -> mget m "metadata" <> None -> with_uid hash m = m.
Proof.
  intros H N. unfold with_uid. case_match; [done|]. unfold set_uid, nested_set'. cbn [nested_del nested_set].
  case_decide; destruct (mget m "metadata") as [[]|]; try done; by edestruct H.
Qed.
Lemma with_uid_id m : obj_id (with_uid hash m) = obj_id m.
Proof.
  destruct (mget m "metadata") as [v|] eqn:E.
  - destruct v as [| | | | | |x].
    7: { unfold obj_id, get_namespace, get_name, nested_str. cbn [nested_get]. destruct (with_uid_meta m x E) as (y & -> & Hy). rewrite E. by rewrite !Hy. }
    all: rewrite with_uid_nonmap; rewrite ?E; done.
  - unfold with_uid. destruct (_ || _); [done|]. unfold set_uid, nested_set'. cbn [nested_del nested_set].
    unfold obj_id, get_namespace, get_name, nested_str. cbn [nested_get]. case_decide; rewrite E; simpl; [by rewrite E|]. by rewrite mget_set_eq.
Qed.
Lemma with_uid_is m x : gvk_is m x -> gvk_is (with_uid hash m) x.
Proof. intros [H1 H2]. split; by rewrite with_uid_get. Qed.
Lemma with_uid_owf m : owf m -> owf (with_uid hash m).
Proof.
  intros W. unfold with_uid. case_match; [done|]. unfold set_uid, nested_set'. case_decide; cbn [nested_del nested_set].
  - destruct (mget m "metadata") as [[]|] eqn:E; try done. apply owf_set; [done|]. apply (owf_del m0). by eapply owf_get in E.
  - destruct (mget m "metadata") as [[]|] eqn:E; simpl; try done.
    + apply owf_set; [done|]. apply (owf_set m0); [by eapply owf_get in E|constructor].
    + apply owf_set; [done|]. apply (owf_set []); [apply owf_nil|constructor].
Qed.
Lemma with_uid_nnz m : owf m -> nonegzero (JMap m) -> nonegzero (JMap (with_uid hash m)).
Proof.
  intros W H. unfold with_uid. case_match; [done|]. assert (Hs := owf_sorted _ W). unfold set_uid, nested_set'. case_decide; cbn [nested_del nested_set].
  - destruct (mget m "metadata") as [[]|] eqn:E; try done. apply nnz_set; [done..|].
    apply nnz_del; [apply owf_sorted; exact (owf_get _ _ _ W E)|exact (nnz_get _ _ _ H E)].
  - destruct (mget m "metadata") as [[]|] eqn:E; simpl; try done.
    + apply nnz_set; [done..|]. apply nnz_set; [apply owf_sorted; exact (owf_get _ _ _ W E)|exact (nnz_get _ _ _ H E)|constructor].
    + apply nnz_set; [done..|]. repeat constructor.
Qed.
Lemma stamp_is m : gvk_is (stamp m) (get_gvk m).
Proof. apply with_uid_is, copy_is. Qed.
Lemma stamp_gvk m : get_gvk (stamp m) = get_gvk m.
Proof. apply gvk_is_get; [apply get_gvk_ok|apply stamp_is]. Qed.
Lemma stamp_id m : obj_id (stamp m) = obj_id m.
Proof. unfold ViewModel.stamp. by rewrite with_uid_id, copy_id. Qed.
Lemma stamp_source m : source_id (stamp m) = source_id m.
Proof. unfold source_id. by rewrite stamp_gvk, stamp_id. Qed.
Lemma stamp_key m : store_key (stamp m) = store_key m.
Proof. rewrite !store_key_skey. by rewrite stamp_id. Qed.
Lemma stamp_owf m : owf m -> owf (stamp m).
Proof. intros. by apply with_uid_owf, copy_owf. Qed.
Lemma stamp_nnz m : owf m -> nonegzero (JMap m) -> nonegzero (JMap (stamp m)).
Proof.
  intros W H. apply with_uid_nnz; [by apply copy_owf|]. unfold obj_copy, set_gvk, set_kind, set_api_version.
  assert (Hs := owf_sorted _ W). apply nnz_set; [by apply ksorted_set| |constructor]. apply nnz_set; [done..|constructor].
Qed.
Lemma stamp_copy m : owf m -> obj_copy (stamp m) = stamp m.
Proof. intros W. eapply gvk_is_copy; [apply get_gvk_ok|by apply owf_sorted, stamp_owf|apply stamp_is]. Qed.
Lemma with_uid_gvk m : get_gvk (with_uid hash m) = get_gvk m.
Proof. unfold get_gvk, get_api_version, get_kind, nested_str. cbn [nested_get]. by rewrite !with_uid_get. Qed.
Lemma nested_del2_idem m k : owf m -> nested_del (nested_del m ["metadata"; k]) ["metadata"; k] = nested_del m ["metadata"; k].
Proof.
  intros W. cbn [nested_del]. destruct (mget m "metadata") as [[| | | | | |x]|] eqn:Em; rewrite ?Em, ?mget_set_eq; try done.
  assert (ksorted x) by (apply owf_sorted; exact (owf_get _ _ _ W Em)).
  rewrite mset_set by (by apply owf_sorted). do 2 f_equal. apply mdel_notin. by apply mget_del_eq.
Qed.
Lemma with_uid_idem m : owf m -> with_uid hash (with_uid hash m) = with_uid hash m.
Proof.
  intros W. destruct (negb (is_view_kind (get_gvk m)) || negb (String.eqb (get_uid m) "")) eqn:E.
  { assert (with_uid hash m = m) as ->; [|by unfold with_uid; rewrite E]. unfold with_uid. by rewrite E. }
  set (u := new_uid hash (get_gvk m) (get_namespace m) (get_name m)).
  assert (E1 : with_uid hash m = set_uid m u) by (unfold with_uid; by rewrite E).
  assert (Hid := with_uid_id m). injection Hid as Hns Hn.
  destruct (decide (u = ""%string)) as [Eu|Nu].
  - assert (E2 : forall a, set_uid a u = nested_del a ["metadata"; "uid"]) by (intros a; unfold set_uid; by rewrite decide_True).
    unfold with_uid at 1. rewrite with_uid_gvk, Hns, Hn. fold u. rewrite E1. rewrite !E2. case_match; [done|]. by apply nested_del2_idem.
  - assert (F : get_uid (set_uid m u) = u \/ set_uid m u = m).
    { unfold set_uid. rewrite decide_False by done. unfold nested_set'. cbn [nested_set].
      destruct (mget m "metadata") as [[| | | | | |x]|] eqn:Em; simpl; try (by right); left;
      unfold get_uid, nested_str; cbn [nested_get]; rewrite !mget_set_eq; done. }
    destruct F as [F|F]; [|by rewrite E1, F, E1, F].
    apply uid_kept. by rewrite E1, F.
Qed.
Lemma stamp_idem m : owf m -> stamp (stamp m) = stamp m.
Proof.
  intros W. unfold ViewModel.stamp at 1. rewrite stamp_copy by done. apply with_uid_idem. by apply copy_owf.
Qed.

(** ** The cache and the ideal objects *)
Record stored_ok (x : gvk) (k : string) (m : jobj) : Prop := {
  so_owf : owf m;
  so_nnz : nonegzero (JMap m);
  so_plain : plain (obj_id m);
  so_gvk : get_gvk m = x;
  so_key : store_key m = k;
  so_stamp : stamp m = m;
  so_view : is_view_kind x = true }.
Record sim (c : caches) (w : world) : Prop := {
  sim_c : forall x k m, cache_of c x !! k = Some m -> stored_ok x k m /\ w !! source_id m = Some m;
  sim_w : forall x i m, w !! (x, i) = Some m -> cache_of c x !! skey i.1 i.2 = Some m /\ source_id m = (x, i) }.

Lemma sim_lookup c w x i : sim c w -> plain i -> cache_of c x !! skey i.1 i.2 = w !! (x, i).
Proof.
  intros H Hi. destruct (w !! (x, i)) as [m|] eqn:E; [by apply (sim_w _ _ H)|].
  destruct (cache_of c x !! skey i.1 i.2) as [m|] eqn:E2; [|done]. exfalso.
  destruct (sim_c _ _ H _ _ _ E2) as [[] Hw]. rewrite store_key_skey in so_key0. apply skey_inj in so_key0; [|done..].
  unfold source_id in Hw. rewrite so_gvk0, so_key0 in Hw. congruence.
Qed.
Lemma so_copy x k m : stored_ok x k m -> obj_copy m = m.
Proof. intros []. rewrite <- so_stamp0. by apply stamp_copy. Qed.
Lemma cache_put c x m y : cache_of (put c x m) y = if decide (x = y) then <[store_key m := m]> (cache_of c x) else cache_of c y.
Proof. unfold cache_of, put. case_decide; subst; [by rewrite lookup_insert|by rewrite lookup_insert_ne]. Qed.
Lemma cache_drop c x k y : cache_of (drop_key c x k) y = if decide (x = y) then delete k (cache_of c x) else cache_of c y.
Proof. unfold cache_of, drop_key. case_decide; subst; [by rewrite lookup_insert|by rewrite lookup_insert_ne]. Qed.
Lemma sim_put c w m : sim c w -> stored_ok (get_gvk m) (store_key m) m -> sim (put c (get_gvk m) m) (<[source_id m := m]> w).
Proof.
  intros H Hm. split.
  - intros x k m'. rewrite cache_put. case_decide as E; subst.
    + destruct (decide (k = store_key m)) as [->|N].
      * rewrite lookup_insert. intros [= <-]. by rewrite lookup_insert.
      * rewrite lookup_insert_ne by congruence. intros E2. destruct (sim_c _ _ H _ _ _ E2) as [Hs Hw]. split; [done|].
        rewrite lookup_insert_ne; [done|]. intros E3. injection E3 as _ E3 E4. apply N. destruct Hs. rewrite <- so_key0. unfold store_key. congruence.
    + intros E2. destruct (sim_c _ _ H _ _ _ E2) as [Hs Hw]. split; [done|]. rewrite lookup_insert_ne; [done|]. destruct Hs. unfold source_id. congruence.
  - intros x i m'. destruct (decide (source_id m = (x, i))) as [E|N].
    + rewrite E, lookup_insert. intros [= <-]. unfold source_id in E. injection E as E1 E2. rewrite cache_put, decide_True by done. subst. rewrite <- store_key_skey. by rewrite lookup_insert.
    + rewrite lookup_insert_ne by done. intros E. destruct (sim_w _ _ H _ _ _ E) as [E1 E2]. split; [|done]. rewrite cache_put. case_decide; [|done]. subst x.
      rewrite lookup_insert_ne; [done|]. intros E3. apply N. destruct (sim_c _ _ H _ _ _ E1) as [[] _]. rewrite store_key_skey in E3, so_key0.
      rewrite <- so_key0 in E3. apply skey_inj in E3; [|by destruct Hm|done]. rewrite <- E2. unfold source_id. congruence.
Qed.
Lemma sim_drop c w m x k : sim c w -> cache_of c x !! k = Some m -> sim (drop_key c x k) (delete (source_id m) w).
Proof.
  intros H Hm. destruct (sim_c _ _ H _ _ _ Hm) as [Hs Hw]. split.
  - intros y j m'. rewrite cache_drop. case_decide as E; subst.
    + rewrite lookup_delete_Some. intros [N E2]. destruct (sim_c _ _ H _ _ _ E2) as [Hs' Hw']. split; [done|].
      rewrite lookup_delete_ne; [done|]. intros E3. apply N. injection E3 as _ E3 E4. destruct Hs, Hs'. rewrite <- so_key0, <- so_key1. unfold store_key. congruence.
    + intros E2. destruct (sim_c _ _ H _ _ _ E2) as [Hs' Hw']. split; [done|]. rewrite lookup_delete_ne; [done|]. destruct Hs, Hs'. unfold source_id. congruence.
  - intros y i m'. rewrite lookup_delete_Some. intros [N E]. destruct (sim_w _ _ H _ _ _ E) as [E1 E2]. split; [|done]. rewrite cache_drop. case_decide; [|done]. subst y.
    rewrite lookup_delete_ne; [done|]. intros ->. congruence.
Qed.
Lemma sim_empty : sim ∅ ∅.
Proof. split; [intros x k m; unfold cache_of; by rewrite lookup_empty|intros x i m; by rewrite lookup_empty]. Qed.
Lemma stamp_stored m : writable m -> is_view_kind (get_gvk m) = true -> stored_ok (get_gvk (stamp m)) (store_key (stamp m)) (stamp m).
Proof.
  intros (W & N & Hp) V. split; try done; [by apply stamp_owf|by apply stamp_nnz|by rewrite stamp_id|by apply stamp_idem|by rewrite stamp_gvk].
Qed.
Lemma sim_write c w m : sim c w -> writable m -> is_view_kind (get_gvk m) = true -> sim (put c (get_gvk m) (stamp m)) (<[source_id m := stamp m]> w).
Proof. intros H Hm V. rewrite <- (stamp_source m), <- (stamp_gvk m). apply sim_put; [done|]. by apply stamp_stored. Qed.

(** ** Kinds *)
Lemma own_view x : own_kind x -> is_view_kind x = true.
Proof.
  intros (op & k & Hd & ->). unfold is_view_kind, is_view_gv, view_gvk. cbn [gvk_group gvk_version].
  rewrite String.eqb_refl, andb_true_r. apply has_suffix_iff. exists (op +:+ "."). unfold view_group. by rewrite app_assoc_s.
Qed.
Lemma own_current m : own_kind (get_gvk m) -> view_gvk (get_operator (get_gvk m)) (get_kind m) = get_gvk m.
Proof.
  intros (op & k & Hd & E). assert (Hop : get_operator (get_gvk m) = op).
  { apply get_operator_owns; [done|]. rewrite E. by left. }
  rewrite Hop, E. f_equal. unfold get_gvk in E. destruct (parse_gv (get_api_version m)) as [[g v]|]; [by injection E|].
  unfold view_gvk, view_group in E. injection E as E _ _. by destruct op.
Qed.
Lemma current_sim c w m : sim c w -> own_kind (get_gvk m) -> plain (obj_id m) -> current c m = w !! source_id m.
Proof.
  intros H Ho Hp. unfold current, vc_get. rewrite own_current, own_view by done.
  change (obj_copy <$> cache_of c (get_gvk m) !! skey (obj_id m).1 (obj_id m).2 = w !! source_id m).
  rewrite (sim_lookup c w) by done. fold (source_id m). destruct (w !! source_id m) as [o|] eqn:E; [|done]. simpl. f_equal.
  destruct (sim_w _ _ H _ _ _ E) as [E1 _]. destruct (sim_c _ _ H _ _ _ E1) as [Hs _]. by apply so_copy in Hs.
Qed.
Lemma sim_stored c w m o : sim c w -> w !! source_id m = Some o -> exists k, stored_ok (get_gvk m) k o /\ source_id o = source_id m.
Proof. intros H E. destruct (sim_w _ _ H _ _ _ E) as [E1 E2]. destruct (sim_c _ _ H _ _ _ E1) as [Hs _]. eauto. Qed.

(** ** What events say *)
Lemma apply_ops_cong ds : forall T T' : contents, (forall i, T i = T' i) -> forall i, apply_ops T ds i = apply_ops T' ds i.
Proof.
  induction ds as [|d ds IH]; intros T T' H i; [apply H|]. apply (IH (apply_op T d) (apply_op T' d)).
  intros j. unfold apply_op. by rewrite H.
Qed.
Lemma events_on_app x es es' : events_on x (es ++ es') = events_on x es ++ events_on x es'.
Proof. unfold events_on. by rewrite List.filter_app, map_app. Qed.
Lemma events_on_one x y e : events_on x [(y, e)] = if decide (y = x) then [e] else [].
Proof. unfold events_on. cbn [List.filter fst]. case_decide; subst; [by rewrite bool_decide_true|by rewrite bool_decide_false]. Qed.
Record tells (w : world) (es : list (gvk * wevent)) (w' : world) : Prop := {
  t_ops : forall x i, apply_ops (kind_of w x) (omap request_of (events_on x es)) i = kind_of w' x i;
  t_copy : forall x e, In (x, e) es -> copied e = e;
  t_view : forall x e, In (x, e) es -> is_view_kind x = true }.
Lemma tells_nil w : tells w [] w.
Proof. split; [done|intros ? ? []..]. Qed.
Lemma tells_app w es w1 es' w2 : tells w es w1 -> tells w1 es' w2 -> tells w (es ++ es') w2.
Proof.
  intros [A1 A2 A3] [B1 B2 B3]. split.
  - intros x i. rewrite events_on_app, omap_app. unfold apply_ops. rewrite foldl_app. rewrite <- B1. apply apply_ops_cong. intros j. apply A1.
  - intros x e Hin. apply in_app_iff in Hin as [?|?]; [by eapply A2|by eapply B2].
  - intros x e Hin. apply in_app_iff in Hin as [?|?]; [by eapply A3|by eapply B3].
Qed.
Lemma tells_insert w m e : is_view_kind (get_gvk m) = true -> copied e = e ->
  (request_of e = Some (Delta Added m) \/ request_of e = Some (Delta Updated m)) ->
  tells w [(get_gvk m, e)] (<[source_id m := m]> w).
Proof.
  intros V C R. split.
  - intros x i. rewrite events_on_one. unfold kind_of. case_decide as E.
    + subst x. assert (F : omap request_of [e] = [Delta Added m] \/ omap request_of [e] = [Delta Updated m]) by (cbn; destruct R as [-> | ->]; auto).
      assert (G : apply_ops (fun i => w !! (get_gvk m, i)) (omap request_of [e]) i = if decide (i = obj_id m) then Some m else w !! (get_gvk m, i)).
      { destruct F as [-> | ->]; done. }
      rewrite G. case_decide as E; [subst; by rewrite lookup_insert|]. rewrite lookup_insert_ne; [done|]. unfold source_id. congruence.
    + cbn. rewrite lookup_insert_ne; [done|]. unfold source_id. congruence.
  - intros x e' [[= <- <-]|[]]. done.
  - intros x e' [[= <- <-]|[]]. done.
Qed.
Lemma tells_delete w m : is_view_kind (get_gvk m) = true -> obj_copy m = m -> tells w [(get_gvk m, WDelete m)] (delete (source_id m) w).
Proof.
  intros V C. split.
  - intros x i. rewrite events_on_one. unfold kind_of. case_decide as E.
    + subst x. cbn. unfold apply_op. cbn [d_obj d_type]. case_decide as E; [subst; by rewrite lookup_delete|]. rewrite lookup_delete_ne; [done|]. unfold source_id. congruence.
    + cbn. rewrite lookup_delete_ne; [done|]. unfold source_id. congruence.
  - intros x e' [[= <- <-]|[]]. cbn. by rewrite C.
  - intros x e' [[= <- <-]|[]]. done.
Qed.

(** ** The steps *)
Lemma source_inj a b : source_id a = source_id b -> get_gvk a = get_gvk b /\ obj_id a = obj_id b.
Proof. intros E. split; [exact (f_equal fst E)|exact (f_equal snd E)]. Qed.
Definition follows (w : world) (out : outcome) (ideal : world * vresult) : Prop :=
  sim out.1.1 ideal.1 /\ out.2 = ideal.2 /\ tells w out.1.2 ideal.1.
Lemma follows_same c w r : sim c w -> follows w (c, [], r) (w, r).
Proof. intros H. split_and!; [done..|apply tells_nil]. Qed.

Lemma vc_add_sim c w m : sim c w -> writable m -> follows w (vc_add hash c m) (ideal_step hash w (VCreate m)).
Proof.
  intros H Hm. unfold vc_add. cbn [ideal_step]. destruct (is_view_kind (get_gvk m)) eqn:V; [|by apply follows_same].
  split_and!; [by apply sim_write|done|]. cbn [fst snd]. rewrite <- (stamp_source m). rewrite <- (stamp_gvk m) at 1.
  apply tells_insert; [by rewrite stamp_gvk| |by left]. cbn. rewrite stamp_copy; [done|apply Hm].
Qed.
Lemma vc_update_sim c w m old : sim c w -> writable m -> is_view_kind (get_gvk m) = true -> w !! source_id m = Some old ->
  follows w (vc_update hash c old m) (<[source_id m := stamp m]> w, VOk).
Proof.
  intros H Hm V Ho. unfold vc_update. rewrite stamp_gvk, V. destruct (sim_stored c w m old H Ho) as (k & Hs & Hid).
  destruct (obj_equal old (stamp m)) eqn:E.
  - assert (old = stamp m) as ->.
    { assert (F : JMap old = JMap (stamp m)); [|by injection F]. destruct Hm as (W & N & _), Hs. apply go_equal_nnz; [done|by apply stamp_nnz|done]. }
    rewrite insert_id by done. by apply follows_same.
  - split_and!; [by apply sim_write|done|]. cbn [fst snd]. rewrite <- (stamp_source m). rewrite <- (stamp_gvk m) at 1.
    apply tells_insert; [by rewrite stamp_gvk| |by right]. cbn. rewrite stamp_copy; [done|apply Hm].
Qed.
Lemma cl_update_sim c w m old : sim c w -> writable m -> own_kind (get_gvk m) -> w !! source_id m = Some old ->
  follows w (cl_update hash c m) (<[source_id m := stamp m]> w, VOk).
Proof.
  intros H Hm K Ho. unfold cl_update. rewrite (current_sim c w), Ho; [|done..|apply Hm]. destruct (sim_stored c w m old H Ho) as (k & Hs & Hid).
  destruct (obj_equal old m) eqn:E; [|apply vc_update_sim; try done; by apply own_view].
  assert (old = m) as ->.
  { assert (F : JMap old = JMap m); [|by injection F]. destruct Hm as (W & N & _), Hs. by apply go_equal_nnz. }
  destruct Hs. rewrite so_stamp0, insert_id by done. by apply follows_same.
Qed.

(** Patches *)
Lemma at_path_get m k : at_path (JMap m) [Key k] = mget m k.
Proof. cbn [at_path child]. by destruct (mget m k). Qed.
Lemma at_path_str m j k : nested_str m [j; k] = match at_path (JMap m) [Key j; Key k] with Some (JStr s) => s | _ => EmptyString end.
Proof.
  unfold nested_str. cbn [nested_get at_path child]. destruct (mget m j) as [v|]; [|done]. destruct v; try done. cbn [child]. by destruct (mget m0 k).
Qed.
Lemma patch_identity old p new : owf old -> owf p -> keeps_identity p -> patch (JMap old) (JMap p) = JMap new -> source_id new = source_id old.
Proof.
  intros Wo Wp (A & K & M) E. assert (L : forall ps, untouched (JMap p) ps -> at_path (JMap new) ps = at_path (JMap old) ps).
  { intros ps U. rewrite <- E. by apply patch_local. }
  assert (L1 : forall k, mget p k = None -> mget new k = mget old k).
  { intros k Hk. rewrite <- !at_path_get. apply L. cbn [untouched]. by rewrite Hk. }
  assert (L2 : forall k, k = "name"%string \/ k = "namespace"%string -> nested_str new ["metadata"; k] = nested_str old ["metadata"; k]).
  { intros k Hk. rewrite !at_path_str. rewrite L; [done|]. cbn [untouched]. destruct (mget p "metadata") as [[]|]; try done. destruct M as [M1 M2].
    destruct Hk as [-> | ->]; [by rewrite M1|by rewrite M2]. }
  assert (G : get_gvk new = get_gvk old).
  { unfold get_gvk, get_api_version, get_kind, nested_str. cbn [nested_get]. by rewrite !L1. }
  unfold source_id, obj_id, get_namespace, get_name. by rewrite G, !L2 by auto.
Qed.
Lemma cl_patch_sim c w m p : sim c w -> op_ok (VPatch m p) -> follows w (cl_patch hash c m p) (ideal_step hash w (VPatch m p)).
Proof.
  intros H (Hp & K & Wp & Np & Kp). unfold cl_patch. cbn [ideal_step]. rewrite (current_sim c w) by done.
  destruct (w !! source_id m) as [old|] eqn:Ho; [|by apply follows_same]. destruct (sim_stored c w m old H Ho) as (k & Hs & Hid).
  unfold patch_object. destruct (patch (JMap old) (JMap p)) as [| | | | | |new] eqn:E; try by apply follows_same.
  destruct Hs. assert (Hi := patch_identity old p new so_owf0 Wp Kp E). rewrite Hid in Hi.
  rewrite <- Hi. apply vc_update_sim; [done| | |by rewrite Hi].
  - split_and!.
    + unfold owf. rewrite <- E. by apply patch_wf.
    + rewrite <- E. by apply patch_nnz.
    + apply source_inj in Hi as [_ Hi]. by rewrite Hi.
  - apply source_inj in Hi as [Hi _]. rewrite Hi. by apply own_view.
Qed.
Lemma vc_delete_sim c w m : sim c w -> plain (obj_id m) -> follows w (vc_delete c m) (ideal_step hash w (VDelete m)).
Proof.
  intros H Hp. unfold vc_delete. cbn [ideal_step]. destruct (is_view_kind (get_gvk m)) eqn:V; [|by apply follows_same].
  rewrite store_key_skey, (sim_lookup c w) by done. fold (source_id m). destruct (w !! source_id m) as [e|] eqn:E; [|by apply follows_same].
  destruct (sim_stored c w m e H E) as (k & Hs & Hid). destruct (sim_w _ _ H _ _ _ E) as [E1 _]. rewrite <- store_key_skey in E1.
  assert (Ek : store_key e = store_key m) by (injection Hid as _ Hns Hn; unfold store_key; congruence).
  assert (Eg : get_gvk e = get_gvk m) by (by injection Hid).
  split_and!; cbn [fst snd]; [|done|].
  - rewrite Ek, <- Hid. by apply sim_drop.
  - rewrite <- Hid, <- Eg. apply tells_delete; [by rewrite Eg|by apply so_copy in Hs].
Qed.

(** Sub-resources *)
Lemma stamp_set m sub v : owf m -> stamp m = m -> obj_copy m = m -> sub_name sub -> jwf v -> stamp (mset m sub v) = mset m sub v.
Proof.
  intros W Hs Hc (S1 & S2 & S3) Wv. assert (Sm := owf_sorted _ W).
  assert (G : gvk_is m (get_gvk m)) by (rewrite <- Hc at 1; apply copy_is).
  assert (G' : gvk_is (mset m sub v) (get_gvk m)) by (destruct G; split; by rewrite mget_set_ne by congruence).
  assert (Eg : get_gvk (mset m sub v) = get_gvk m) by (apply gvk_is_get; [apply get_gvk_ok|done]).
  assert (Hc' : obj_copy (mset m sub v) = mset m sub v) by (eapply gvk_is_copy; [apply get_gvk_ok|by apply ksorted_set|done]).
  unfold ViewModel.stamp. rewrite Hc'. unfold ViewModel.stamp in Hs. rewrite Hc in Hs.
  assert (Em : mget (mset m sub v) "metadata" = mget m "metadata") by (by rewrite mget_set_ne by congruence).
  assert (Eu : get_uid (mset m sub v) = get_uid m) by (unfold get_uid, nested_str; cbn [nested_get]; by rewrite Em).
  assert (En : get_name (mset m sub v) = get_name m) by (unfold get_name, nested_str; cbn [nested_get]; by rewrite Em).
  assert (Es : get_namespace (mset m sub v) = get_namespace m) by (unfold get_namespace, nested_str; cbn [nested_get]; by rewrite Em).
  unfold with_uid in *. rewrite Eg, Eu, En, Es. destruct (negb _ || negb _) eqn:C; [done|].
  apply orb_false_iff in C as [_ C]. apply negb_false_iff, String.eqb_eq in C.
  set (u := new_uid _ _ _ _) in *. unfold set_uid in *. case_decide as Eu'.
  - cbn [nested_del] in *. rewrite Em. destruct (mget m "metadata") as [[| | | | | |x]|] eqn:Ex; try done.
    apply mset_same; [by apply ksorted_set|]. rewrite Em. rewrite <- Hs in Ex. rewrite mget_set_eq in Ex. congruence.
  - unfold nested_set' in *. cbn [nested_set] in *. rewrite Em. destruct (mget m "metadata") as [[| | | | | |x]|] eqn:Ex; try done; exfalso; simpl in Hs.
    + rewrite <- Hs in C. unfold get_uid, nested_str in C. cbn [nested_get] in C. rewrite !mget_set_eq in C. done.
    + rewrite <- Hs in Ex. by rewrite mget_set_eq in Ex.
Qed.
Lemma set_sub_sim c w m sub v old : sim c w -> own_kind (get_gvk m) -> sub_name sub -> jwf v -> nonegzero v -> w !! source_id m = Some old ->
  follows w (cl_update hash c (mset old sub v)) (<[source_id m := mset old sub v]> w, VOk).
Proof.
  intros H K Sn Wv Nv Ho. destruct (sim_stored c w m old H Ho) as (k & Hs & Hid). assert (Hc := so_copy _ _ _ Hs). destruct Hs.
  assert (Es : stamp (mset old sub v) = mset old sub v) by (by apply stamp_set).
  assert (Hi : source_id (mset old sub v) = source_id m).
  { destruct Sn as (S1 & S2 & S3). rewrite <- Hid. unfold source_id, obj_id, get_namespace, get_name, get_gvk, get_api_version, get_kind, nested_str. cbn [nested_get].
    by rewrite !mget_set_ne by congruence. }
  rewrite <- Es at 2. rewrite <- Hi. eapply cl_update_sim; [done| | |by rewrite Hi].
  - split_and!; [by apply owf_set|apply nnz_set; [by apply owf_sorted|done..]|]. apply source_inj in Hi as [_ Hi], Hid as [_ Hid]. by rewrite Hi, <- Hid.
  - apply source_inj in Hi as [Hi _]. by rewrite Hi.
Qed.
Lemma cl_sub_update_sim c w sub m : sim c w -> op_ok (VSubUpdate sub m) -> follows w (cl_sub_update hash c sub m) (ideal_step hash w (VSubUpdate sub m)).
Proof.
  intros H ((W & N & Hp) & K & Sn). unfold cl_sub_update. cbn [ideal_step]. rewrite (current_sim c w) by done.
  destruct (w !! source_id m) as [old|] eqn:Ho; [|by apply follows_same].
  destruct (mget m sub) as [[| | | | | |v]|] eqn:Ev; try by apply follows_same.
  assert (Nv := nnz_get _ _ _ N Ev). assert (Wv := owf_get _ _ _ W Ev). destruct (sim_stored c w m old H Ho) as (k & Hs & Hid). destruct Hs.
  destruct (match mget old sub with Some (JMap w0) => go_equal (JMap w0) (JMap v) | _ => false end) eqn:E; [|by apply set_sub_sim].
  destruct (mget old sub) as [[| | | | | |y]|] eqn:Ey; try done. apply go_equal_nnz in E; [|exact (nnz_get _ _ _ so_nnz0 Ey)|done]. injection E as ->.
  rewrite mset_same by (done || by apply owf_sorted). rewrite insert_id by done. by apply follows_same.
Qed.
Lemma cl_sub_create_sim c w sub m s : sim c w -> op_ok (VSubCreate sub m s) -> follows w (cl_sub_create hash c sub m s) (ideal_step hash w (VSubCreate sub m s)).
Proof.
  intros H (Hp & K & Ws & Ns & Sn). unfold cl_sub_create. cbn [ideal_step].
  destruct (mget s sub) as [[| | | | | |v]|] eqn:Ev; try by apply follows_same.
  assert (Nv := nnz_get _ _ _ Ns Ev). assert (Wv := owf_get _ _ _ Ws Ev). rewrite (current_sim c w) by done.
  destruct (w !! source_id m) as [old|] eqn:Ho; [|by apply follows_same]. by apply set_sub_sim.
Qed.
End view.
