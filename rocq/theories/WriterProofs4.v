(** Proofs about the target writer: targets that are patched. *)
From Verif Require Import WriterModel ZSetSpec OpsSpec GatherSpec ExecSpec JsonSpec CleanSpec PipelineSpec GroupSpec ValueSpec ViewSpec WriterSpec.
From Verif Require Import JsonProofs CleanProofs ReconcileProofs ObjProofs ValueProofs GroupProofs ViewProofs ViewProofs2 WriterProofs WriterProofs2 WriterProofs3.

(** ** Positions *)
Definition far_same (a b : jobj) : Prop :=
  (forall j, j <> "metadata"%string -> j <> "apiVersion"%string -> j <> "kind"%string -> mget a j = mget b j)
  /\ (forall f, f ∉ ["name"; "namespace"; "uid"; "resourceVersion"]%string -> meta a f = meta b f).
Lemma at_meta a f ps : at_path (JMap a) (Key "metadata" :: Key f :: ps) = match meta a f with Some v => at_path v ps | None => None end.
Proof. unfold meta. cbn [nested_get at_path child]. destruct (mget a "metadata") as [[]|]; done. Qed.
Lemma untouched_meta a f ps : meta_fine a -> untouched (JMap a) (Key "metadata" :: Key f :: ps) <-> match meta a f with Some v => untouched v ps | None => True end.
Proof.
  unfold meta_fine, meta. cbn [nested_get untouched]. destruct (mget a "metadata") as [[]|]; done.
Qed.
Lemma far_cases ps : far ps -> (exists f ps', ps = Key "metadata" :: Key f :: ps' /\ f ∉ ["name"; "namespace"; "uid"; "resourceVersion"]%string)
  \/ (exists j ps', ps = Key j :: ps' /\ j <> "metadata"%string /\ j <> "apiVersion"%string /\ j <> "kind"%string).
Proof.
  destruct ps as [|[k|i] ps]; try done. cbn [far]. case_decide; [subst|].
  - destruct ps as [|[f|?] ps]; try done. left. eauto.
  - intros N. rewrite !not_elem_of_cons in N. right. exists k, ps. naive_solver.
Qed.
Lemma far_at a b ps : far_same a b -> far ps -> at_path (JMap a) ps = at_path (JMap b) ps.
Proof.
  intros [H1 H2] F. destruct (far_cases ps F) as [(f & ps' & -> & Hf)|(j & ps' & -> & J1 & J2 & J3)].
  - by rewrite !at_meta, H2.
  - cbn [at_path child]. by rewrite H1.
Qed.
Lemma far_untouched a b ps : meta_fine a -> meta_fine b -> far_same a b -> far ps -> untouched (JMap a) ps -> untouched (JMap b) ps.
Proof.
  intros Fa Fb [H1 H2] F. destruct (far_cases ps F) as [(f & ps' & -> & Hf)|(j & ps' & -> & J1 & J2 & J3)].
  - rewrite !untouched_meta by done. by rewrite H2.
  - cbn [untouched]. by rewrite H1.
Qed.
Lemma far_same_trans a b c : far_same a b -> far_same b c -> far_same a c.
Proof. intros [A1 A2] [B1 B2]. split; intros; [rewrite A1, B1|rewrite A2, B2]; done. Qed.

(** ** Withdrawals *)
Lemma remove_get f m k : ksorted m -> mget (remove_entries f m) k = match mget m k with Some JNull | None => None | Some v => Some (f v) end.
Proof.
  induction m as [|[k' v] m IH]; intros Hs; [done|]. apply ksorted_cons in Hs as [Hs Hn]. apply mget_lt in Hn. cbn [mget]. destruct (decide (k = k')) as [->|N].
  - destruct v; cbn [remove_entries mget]; rewrite ?decide_True by done; try done. by rewrite IH, Hn.
  - destruct v; cbn [remove_entries mget]; rewrite ?decide_False by done; by apply IH.
Qed.
Lemma remove_keys f m : Forall (fun kv => exists kv', kv' ∈ m /\ kv.1 = kv'.1) (remove_entries f m).
Proof.
  induction m as [|[k v] m IH]; [constructor|]. assert (IH' : Forall (fun kv => exists kv', kv' ∈ (k, v) :: m /\ kv.1 = kv'.1) (remove_entries f m)).
  { eapply Forall_impl; [exact IH|]. intros ? (kv' & H & E). exists kv'. split; [by apply elem_of_list_further|done]. }
  assert (Hh : exists kv', kv' ∈ (k, v) :: m /\ k = kv'.1) by (eexists; split; [apply elem_of_list_here|done]).
  destruct v; [done|..]; cbn [remove_entries]; by constructor.
Qed.
Lemma remove_sorted f m : ksorted m -> ksorted (remove_entries f m).
Proof.
  induction m as [|[k v] m IH]; [done|]. intros Hs. apply ksorted_cons in Hs as [Hs Hn].
  assert (Hf : Forall (fun kv => slt k kv.1) (remove_entries f m)).
  { eapply Forall_impl; [apply remove_keys|]. intros kv (kv' & H & ->). by eapply Forall_forall in Hn. }
  destruct v; [by apply IH|..]; cbn [remove_entries]; apply ksorted_cons; split; auto.
Qed.
Lemma remove_wf v : jwf v -> jwf (remove_nested v).
Proof.
  induction v as [|b|n|f|s|l IH|m IH] using json_rect'; intros W; try by constructor.
  - inversion W as [| | | | |? Hl|]; subst. constructor. apply Forall_lookup. intros i x. rewrite list_lookup_fmap. destruct (l !! i) as [y|] eqn:E; [|done]. intros [= <-].
    rewrite Forall_lookup in IH. eapply IH; [exact E|by eapply Forall_lookup_1].
  - change (owf (remove_map m)). apply owf_iff. split; [by apply remove_sorted, owf_sorted|]. intros k v. unfold remove_map. rewrite remove_get by (by apply owf_sorted).
    destruct (mget m k) as [w|] eqn:E; [|done]. assert (jwf w) by exact (owf_get _ _ _ W E). assert (jwf (remove_nested w)) by (rewrite Forall_forall in IH; apply (IH (k, w)); [by apply mget_in|done]). destruct w; by intros [= <-].
Qed.
Lemma remove_nnz v : nonegzero (remove_nested v).
Proof.
  induction v as [|b|n|f|s|l IH|m IH] using json_rect'; try by constructor.
  - constructor. apply Forall_lookup. intros i x. rewrite list_lookup_fmap. destruct (l !! i) as [y|] eqn:E; [|done]. intros [= <-]. by eapply Forall_lookup_1 in IH.
  - constructor. induction m as [|[k v] m IHm]; [constructor|]. apply Forall_cons in IH as [I1 I2]. specialize (IHm I2). destruct v; [done|..]; cbn [remove_entries]; by constructor.
Qed.
Lemma remove_at ps : forall v w, jwf v -> leaf w -> at_path v ps = Some w -> at_path (remove_nested v) ps = Some JNull.
Proof.
  induction ps as [|p ps IH]; intros v w W L E.
  - injection E as ->. by destruct w.
  - cbn [at_path] in *. destruct (child v p) as [c|] eqn:Ec; [|done]. assert (Nc : c <> JNull).
    { intros ->. destruct ps as [|[] ps]; [injection E as <-; done|done..]. }
    assert (Wc : jwf c) by (by eapply child_wf). destruct v, p; try done; cbn [remove_nested child] in *.
    + rewrite list_lookup_fmap, Ec. cbn. by eapply IH.
    + rewrite remove_get by (by apply owf_sorted). rewrite Ec. assert (at_path (remove_nested c) ps = Some JNull) by (by eapply IH). by destruct c.
Qed.
Lemma remove_untouched ps : forall v, jwf v -> untouched v ps -> untouched (remove_nested v) ps.
Proof.
  induction ps as [|p ps IH]; intros v W U; [done|]. cbn [untouched] in U |- *. destruct v, p; try done; cbn [remove_nested].
  - rewrite list_lookup_fmap. destruct (l !! i) as [c|] eqn:E; [|done]. cbn. apply IH; [by eapply jwf_list|done].
  - rewrite remove_get by (by apply owf_sorted). destruct (mget m k) as [c|] eqn:E; [|done]. assert (untouched (remove_nested c) ps) by (apply IH; [exact (owf_get _ _ _ W E)|done]). by destruct c.
Qed.
(** The null entries of a patch take away what is there. *)
Lemma patch_gone ps : forall o m k v, jwf o -> jwf m -> leaf v ->
  at_path o (ps ++ [Key k]) = Some v -> at_path m (ps ++ [Key k]) = Some JNull -> at_path (patch o m) (ps ++ [Key k]) = None.
Proof.
  assert (G : forall ps o m v, go_equal o m = true -> leaf v -> at_path o ps = Some v -> at_path m ps = Some JNull -> False).
  { clear ps. intros ps. induction ps as [|p ps IH]; intros o m v G L E1 E2.
    - injection E1 as ->. injection E2 as ->. by destruct v.
    - cbn [at_path] in *. assert (Gc := go_child o m p G). destruct (child o p), (child m p); try done. by eapply IH. }
  induction ps as [|p ps IH]; intros o m k v Ho Hm L Eo Em; (destruct (go_equal o m) eqn:Ge; [exfalso; by eapply G|]); cbn [app] in *.
  - cbn [at_path] in *. destruct (child m (Key k)) as [w|] eqn:Ew; [|done]. injection Em as ->. destruct m as [| | | | |lm|mm]; try done. destruct (child o (Key k)) as [w|] eqn:Ew'; [|done].
    destruct o as [| | | | |lo|mo]; try done. cbn [child] in *. rewrite patch_map by done. cbn [child]. rewrite entries_get by (by apply owf_sorted). unfold entry. by rewrite Ew.
  - cbn [at_path] in *. destruct (child o p) as [oo|] eqn:Eop; [|done]. destruct (child m p) as [mm'|] eqn:Emp; [|done].
    destruct m as [| | | | |lm|mm], p as [j|i]; try done; destruct o as [| | | | |lo|mo']; try done; cbn [child] in Eop, Emp.
    + rewrite patch_list by done. cbn [child]. rewrite items_get, Emp, Eop. eapply IH; eauto using jwf_list.
    + rewrite patch_map by done. cbn [child]. rewrite entries_get by (by apply owf_sorted). unfold entry. rewrite Emp, Eop.
      assert (F : at_path (patch oo mm') (ps ++ [Key k]) = None) by (eapply IH; eauto using owf_get). by destruct mm'.
Qed.
Lemma patch_to_map o m : exists r, patch o (JMap m) = JMap r.
Proof. destruct (patch_cases o (JMap m)) as [->|[(? & ? & ? & ? & _)|(mo & mm & ? & ? & -> & _)]]; eauto. done. Qed.
Lemma patch_map_field o q r k mk : owf o -> owf q -> patch (JMap o) (JMap q) = JMap r -> mget q k = Some (JMap mk) -> exists x, mget r k = Some (JMap x).
Proof.
  intros Wo Wq E Ek. destruct (patch_child (JMap o) (JMap q) (Key k) (JMap mk) Wo Wq Ek) as [H|(vo & Eo & H)]; [done|..]; rewrite E in H; cbn [child] in H; [eauto|].
  destruct (patch_to_map vo mk) as [x Ex]. rewrite Ex in H. eauto.
Qed.
(** The withdrawal and the delta *)
Section withdrawal.
Variables (x : gvk) (m : jobj).
Hypothesis Hm : target_ok x m.
Notation new := (typed x m).
Lemma new_owf : owf new.
Proof. apply typed_owf, Hm. Qed.
Lemma new_meta : exists y, mget new "metadata" = Some (JMap y).
Proof. apply name_has. rewrite typed_name. apply Hm. Qed.
Lemma remove_new_owf : owf (remove_map new).
Proof. exact (remove_wf (JMap new) new_owf). Qed.
Lemma remove_new_get k : mget (remove_map new) k = match mget new k with Some JNull | None => None | Some v => Some (remove_nested v) end.
Proof. apply remove_get, owf_sorted, new_owf. Qed.
Lemma remove_new_fine : meta_fine (remove_map new).
Proof. unfold meta_fine. rewrite remove_new_get. destruct new_meta as [y ->]. done. Qed.
Definition wpatch := withdrawal new.
Lemma wpatch_eq : wpatch = put_meta (put_meta (set_gvk (remove_map new) (get_gvk new)) "namespace" (Some (JStr (get_namespace new)))) "name" (Some (JStr (get_name new))).
Proof. done. Qed.
Let W0 := set_gvk_owf _ (get_gvk new) remove_new_owf.
Let F0 := set_gvk_fine _ (get_gvk new) remove_new_fine.
Lemma wpatch_owf : owf wpatch.
Proof. rewrite wpatch_eq. apply put_owf; [|constructor]. apply put_owf; [exact W0|constructor]. Qed.
Lemma wpatch_get k : k <> "metadata"%string -> k <> "apiVersion"%string -> k <> "kind"%string -> mget wpatch k = mget (remove_map new) k.
Proof. intros. rewrite wpatch_eq, !put_get by done. unfold set_gvk, set_kind, set_api_version. by rewrite !mget_set_ne by congruence. Qed.
Lemma wpatch_meta f : f <> "name"%string -> f <> "namespace"%string -> meta wpatch f = meta (remove_map new) f.
Proof.
  intros. rewrite wpatch_eq, put_meta_get; [|apply put_owf; [exact W0|constructor]|apply put_fine; exact F0]. rewrite decide_False by done.
  rewrite put_meta_get by done. rewrite decide_False by done. apply set_gvk_meta.
Qed.
Lemma wpatch_far : far_same wpatch (remove_map new).
Proof.
  split; [intros; by apply wpatch_get|]. intros f Hf. rewrite !not_elem_of_cons in Hf. apply wpatch_meta; naive_solver.
Qed.
Lemma wpatch_has : exists y, mget wpatch "metadata" = Some (JMap y).
Proof.
  apply name_has. unfold get_name at 1. rewrite meta_str, wpatch_eq, put_meta_get; [|apply put_owf; [exact W0|constructor]|apply put_fine; exact F0]. rewrite decide_True by done. rewrite typed_name. apply Hm.
Qed.
Lemma wpatch_nnz : nonegzero (JMap wpatch).
Proof.
  rewrite wpatch_eq. apply put_nnz; [apply put_owf; [exact W0|constructor]| |constructor]. apply put_nnz; [exact W0| |constructor].
  assert (Hs := owf_sorted _ remove_new_owf). unfold set_gvk, set_kind, set_api_version. repeat (apply nnz_set; [repeat apply ksorted_set; done| |constructor]). exact (remove_nnz (JMap new)).
Qed.
Lemma wpatch_version : meta m "resourceVersion" = None -> meta wpatch "resourceVersion" = None.
Proof.
  intros E. rewrite wpatch_meta by done. rewrite <- (typed_meta x) in E. unfold meta in *. cbn [nested_get] in *. rewrite remove_new_get. destruct new_meta as [y Ey]. rewrite Ey in E |- *. cbn [remove_nested].
  rewrite remove_get by (apply owf_sorted; exact (owf_get _ _ _ new_owf Ey)). by destruct (mget y "resourceVersion") as [[]|].
Qed.
Lemma wpatch_status : map_or_none (mget m "status") -> map_or_none (mget wpatch "status").
Proof. intros E. rewrite wpatch_get by done. rewrite remove_new_get. rewrite typed_get by done. by destruct (mget m "status") as [[]|]. Qed.
Lemma new_far : far_same new m.
Proof. split; intros; [by apply typed_get|apply typed_meta]. Qed.
Lemma m_fine : meta_fine m.
Proof. apply name_fine. apply Hm. Qed.
Lemma wpatch_untouched ps : far ps -> untouched (JMap m) ps -> untouched (JMap wpatch) ps.
Proof.
  intros F U. eapply far_untouched; [apply remove_new_fine|apply has_fine, wpatch_has| |done|].
  - destruct wpatch_far as [H1 H2]. split; intros; symmetry; [by apply H1|by apply H2].
  - apply (remove_untouched ps (JMap new)); [apply new_owf|]. eapply far_untouched; [apply m_fine|apply has_fine, new_meta| |done..].
    destruct new_far as [H1 H2]. split; intros; symmetry; [by apply H1|by apply H2].
Qed.
Lemma wpatch_at ps v : far ps -> leaf v -> at_path (JMap m) ps = Some v -> at_path (JMap wpatch) ps = Some JNull.
Proof.
  intros F L E. rewrite (far_at _ _ ps wpatch_far F). apply (remove_at ps (JMap new) v); [apply new_owf|done|]. by rewrite (far_at _ _ ps new_far F).
Qed.
End withdrawal.

(** ** Writing a patched object *)
Section writer.
Variable hash : string -> string.
Variable has_status unconditional : gvk -> bool.
Notation cluster_ok := (cluster_ok hash).
Variables (x : gvk) (m : jobj).
Hypothesis Hm : target_ok x m.
Notation k := (x, obj_id m).
Notation new := (typed x m).

Lemma patch_write s old q : cluster_ok s -> stored s k = Some old -> owf q -> (exists y, mget q "metadata" = Some (JMap y)) ->
  (is_view_kind x = true -> nonegzero (JMap q)) -> (is_view_kind x = false -> meta q "resourceVersion" = None) ->
  (is_view_kind x = false -> has_status x = true -> map_or_none (mget q "status")) ->
  exists o' s' e m', patch (JMap old) (JMap q) = JMap o' /\ patch_object old q = Some o'
    /\ update_again hash has_status unconditional attempts s [] (restore x o' new) = (s', e) /\ ignore_missing e = None
    /\ cluster_ok s' /\ stored s' k = Some m' /\ fit k m' /\ frame s s' k
    /\ (forall ps, far ps -> at_path (JMap m') ps = at_path (patch (JMap old) (JMap q)) ps)
    /\ (meta q "uid" = None -> meta m' "uid" = meta old "uid").
Proof.
  intros Hs E Wq [yq Hq] Nq Vq Sq. assert (Hh : forall z, hash z <> EmptyString) by apply Hs. assert (Kn := k_name x m Hm). assert (Kp := k_proper x m Hm).
  assert (Hm' := Hm). destruct Hm' as (W & P & Nn & G & V).
  destruct (stored_spec hash Hh s k old Hs Kp Kn E) as (Fo & Uo & So). assert (Wo := fit_owf _ _ Fo).
  destruct (patch_to_map (JMap old) q) as [o' Eo']. assert (Wo' : owf o') by (unfold owf; rewrite <- Eo'; by apply patch_wf).
  destruct (patch_map_field old q o' "metadata" yq Wo Wq Eo' Hq) as [yo' Hyo']. assert (Fo' : meta_fine o') by (unfold meta_fine; by rewrite Hyo').
  assert (Nn' : get_name new <> EmptyString) by (by rewrite typed_name). set (r := restore x o' new).
  assert (Fr : fit k r).
  { split; [by apply restore_owf|apply restore_gvk|done|cbn [snd]; unfold r; rewrite restore_id by done; apply typed_id|by apply restore_has]. }
  assert (Mr : forall f, f <> "name"%string -> f <> "namespace"%string -> meta r f = meta o' f).
  { intros f F1 F2. unfold r. rewrite restore_meta by done. by rewrite !decide_False. }
  assert (Gr : forall j, j <> "metadata"%string -> j <> "apiVersion"%string -> j <> "kind"%string -> mget r j = mget o' j).
  { intros j J1 J2 J3. unfold r. rewrite restore_get by done. unfold set_gvk, set_kind, set_api_version. by rewrite !mget_set_ne by congruence. }
  assert (Lf : forall f, meta q f = None -> meta o' f = meta old f).
  { intros f Hf. assert (L := patch_local [Key "metadata"; Key f] (JMap old) (JMap q) Wo Wq). rewrite Eo', !at_meta in L. cbn [at_path] in L.
    assert (U : untouched (JMap q) [Key "metadata"; Key f]) by (apply untouched_meta; [unfold meta_fine; by rewrite Hq|by rewrite Hf]). specialize (L U). by destruct (meta o' f), (meta old f). }
  assert (Sr : storable k r).
  { split; [done|]. split; [apply P|]. intros Vx. cbn in Vx. rewrite Vx in V. split; [apply V|]. apply restore_nnz; [done|]. rewrite <- Eo'. apply patch_nnz; [done..|by apply So|by apply Nq]. }
  destruct (update_spec hash has_status unconditional Hh s k r old) as (s' & m' & o & H1 & H2 & H3); [done..| |].
  { destruct (is_view_kind x) eqn:Vx; [by left|]. right. left. apply get_version_meta. rewrite Mr by done. apply Lf. by apply Vq. }
  assert (St : status_after has_status k r old = mget o' "status").
  { unfold status_after. cbn [fst]. rewrite Gr by done. destruct (is_view_kind x) eqn:Vx; [done|]. destruct (has_status x) eqn:Hx; [|done]. specialize (Sq eq_refl eq_refl).
    destruct (mget q "status") as [[| | | | | |qs]|] eqn:Eq; try done.
    - destruct (patch_map_field old q o' "status" qs Wo Wq Eo' Eq) as [y Ey]. by rewrite Ey.
    - assert (L := patch_local [Key "status"%string] (JMap old) (JMap q) Wo Wq). rewrite Eo' in L. cbn [at_path child untouched] in L. rewrite Eq in L. specialize (L I).
      assert (L' : mget o' "status" = mget old "status") by (by destruct (mget o' "status"), (mget old "status")). rewrite L'. by destruct (mget old "status") as [[]|]. }
  exists o', s', (update_error has_status k r), m'. split; [done|]. split; [unfold patch_object; by rewrite Eo'|]. split.
  { unfold attempts. cbn [update_again]. fold r. rewrite H1. unfold update_error. destruct (is_view_kind k.1 || has_status k.1); [done|]. by destruct (mget r "status") as [[]|]. }
  split. { unfold update_error. destruct (is_view_kind k.1 || has_status k.1); [done|]. by destruct (mget r "status") as [[]|]. }
  destruct (wr_like _ _ _ _ _ _ _ H2) as [L1 L2]. split_and!; [apply H2|apply H2|apply H2|apply H2| |].
  - intros ps Fps. rewrite Eo'. apply far_at; [|done]. split.
    + intros j J1 J2 J3. destruct (decide (j = "status"%string)) as [->|J4]; [rewrite (wr_status _ _ _ _ _ _ _ H2); apply St|]. rewrite L1 by done. by apply Gr.
    + intros f Hf. rewrite !not_elem_of_cons in Hf. destruct Hf as (F1 & F2 & F3 & F4 & _). rewrite L2 by done. by apply Mr.
  - intros Hu. apply H3. apply get_uid_meta. rewrite Mr by done. by apply Lf.
Qed.
End writer.
