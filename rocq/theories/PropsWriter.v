(** Properties C33 (targets that are updated) and C34 (targets that are patched). *)
From Verif Require Import WriterModel ZSetSpec OpsSpec GatherSpec ExecSpec JsonSpec CleanSpec PipelineSpec GroupSpec ValueSpec ViewSpec WriterSpec.
From Verif Require Import JsonProofs CleanProofs ReconcileProofs ObjProofs ValueProofs GroupProofs ViewProofs ViewProofs2 WriterProofs WriterProofs2 WriterProofs3 WriterProofs4 WriterProofs5.

(** ** C33 *)

(** An upsert succeeds and leaves exactly one object changed: the one of that
    name.  It has the fields of the delta and no other ones, the labels and
    annotations of the delta on top of those it had, and the rest of its metadata
    as before.  Nobody else writes in between and the cache is up to date.  Not
    covered: the status of native objects with a status sub-resource, which
    [expected_status] describes (see the refutations); views of native kinds. *)
Theorem C33_upsert_partial : forall hash has_status unconditional x s d orig, cluster_ok hash s -> target_ok x (d_obj d) -> upsert (d_type d) ->
  let k := (x, obj_id (d_obj d)) in (is_view_kind x = false -> up_to_date s k) ->
  exists s' m', target_write hash has_status unconditional Updater x s [] d orig = (s', None)
    /\ cluster_ok hash s' /\ stored s' k = Some m' /\ holds has_status x (d_obj d) (stored s k) m' /\ frame s s' k.
Proof.
  intros hash has_status uncond x s d orig Hs Hm Ht k Hu. destruct (upsert_write hash has_status uncond x (d_obj d) Hm s (d_type d) Hs Ht Hu) as (s' & m' & H1 & H2 & H3).
  exists s', m'. split; [exact H1|]. split_and!; [apply H2|apply H2| |apply H2]. eapply (updated_holds has_status x (d_obj d) Hm); [by eapply base_fit|done|reflexivity|apply H2|apply H2|apply H2].
Qed.
Print Assumptions C33_upsert_partial.

(** Writing the same delta again changes nothing.  The exception: a native object
    with a status sub-resource gets its status only with the second write. *)
Theorem C33_again_partial : forall hash has_status unconditional x s d orig orig', cluster_ok hash s -> target_ok x (d_obj d) -> upsert (d_type d) ->
  let k := (x, obj_id (d_obj d)) in (is_view_kind x = false -> up_to_date s k) ->
  (is_view_kind x = false -> has_status x = true -> (exists st, mget (d_obj d) "status" = Some (JMap st)) -> stored s k <> None) ->
  let s' := synced (target_write hash has_status unconditional Updater x s [] d orig).1 in
  exists s'', target_write hash has_status unconditional Updater x s' [] d orig' = (s'', None) /\ same_stored s' s''.
Proof.
  intros hash has_status uncond x s d orig orig' Hs Hm Ht k Hu Hst s'. destruct (upsert_write hash has_status uncond x (d_obj d) Hm s (d_type d) Hs Ht Hu) as (s1 & m' & H1 & H2 & H3).
  assert (E : s' = synced s1) by (unfold s'; change (target_write hash has_status uncond Updater x s [] d orig) with (write_update hash has_status uncond x s [] (d_type d) (typed x (d_obj d))); by rewrite H1).
  rewrite E. apply (upsert_write_again hash has_status uncond x (d_obj d) Hm s (d_type d) (synced s1) m' Hs Ht); [|done|done|done].
  destruct H2. by split.
Qed.
Print Assumptions C33_again_partial.

(** A deletion removes the object and nothing else; a missing object is no error. *)
Theorem C33_delete : forall hash has_status unconditional x s d orig, cluster_ok hash s -> target_ok x (d_obj d) -> d_type d = Deleted ->
  let k := (x, obj_id (d_obj d)) in
  exists s', target_write hash has_status unconditional Updater x s [] d orig = (s', None) /\ cluster_ok hash s' /\ stored s' k = None /\ frame s s' k.
Proof.
  intros hash has_status uncond x s d orig Hs Hm Ht k. assert (Hm' := Hm). destruct Hm' as (W & P & N & G & V).
  destruct (delete_spec hash s k (typed x (d_obj d)) Hs (typed_fit x (d_obj d) W G N) P) as (s' & H1 & H2 & H3 & H4 & _). exists s'. split_and!; try done.
  cbn [target_write]. rewrite Ht. cbn [write_update meanwhile]. change (set_gvk (obj_copy (d_obj d)) x) with (typed x (d_obj d)). rewrite H1. by destruct (stored s k).
Qed.
Print Assumptions C33_delete.

(** After any sequence of deltas each object is as its last delta says. *)
Lemma last_for_snoc i ds d : last_for i (ds ++ [d]) = if decide (obj_id (d_obj d) = i) then Some d else last_for i ds.
Proof. unfold last_for. by rewrite foldl_app. Qed.
Lemma synced_ok hash s : cluster_ok hash s -> cluster_ok hash (synced s).
Proof. done. Qed.
Theorem C33_run : forall hash has_status unconditional x s ds, cluster_ok hash s -> (is_view_kind x = false -> forall i, up_to_date s (x, i)) ->
  Forall (fun d => target_ok x (d_obj d) /\ (d_type d = Deleted \/ upsert (d_type d))) ds ->
  let s' := target_run hash has_status unconditional x s ds in
  cluster_ok hash s'
  /\ (forall j, proper j -> j.1 <> x -> stored s' j = stored s j)
  /\ (forall i, proper (x, i) ->
        match last_for i ds with
        | None => stored s' (x, i) = stored s (x, i)
        | Some d => if decide (d_type d = Deleted) then stored s' (x, i) = None
                    else exists m old, stored s' (x, i) = Some m /\ holds has_status x (d_obj d) old m
        end).
Proof.
  intros hash has_status uncond x s ds Hs Hu Hds. cbn zeta.
  assert (Hc : is_view_kind x = false -> forall i, up_to_date (target_run hash has_status uncond x s ds) (x, i)).
  { destruct ds as [|d ds _] using rev_ind; [done|]. intros _ i. unfold target_run. by rewrite foldl_app. }
  revert Hc. induction ds as [|d ds IH] using rev_ind; [done|]. intros _. apply Forall_app in Hds as [Hds Hd]. apply Forall_cons in Hd as [[Hm Ht] _].
  assert (Hc : is_view_kind x = false -> forall i, up_to_date (target_run hash has_status uncond x s ds) (x, i)).
  { destruct ds as [|d' ds _] using rev_ind; [done|]. intros _ i. unfold target_run. by rewrite foldl_app. }
  destruct (IH Hds Hc) as (I1 & I2 & I3). clear IH. set (s1 := target_run hash has_status uncond x s ds) in *.
  assert (E : target_run hash has_status uncond x s (ds ++ [d]) = synced (target_write hash has_status uncond Updater x s1 [] d None).1) by (unfold target_run; by rewrite foldl_app).
  rewrite E. clear E. set (k := (x, obj_id (d_obj d))).
  assert (Q : exists s2, target_write hash has_status uncond Updater x s1 [] d None = (s2, None) /\ cluster_ok hash s2 /\ frame s1 s2 k
     /\ if decide (d_type d = Deleted) then stored s2 k = None else exists m old, stored s2 k = Some m /\ holds has_status x (d_obj d) old m).
  { destruct (decide (d_type d = Deleted)) as [D|D].
    - destruct (C33_delete hash has_status uncond x s1 d None I1 Hm D) as (s2 & ? & ? & ? & ?). by exists s2.
    - destruct Ht as [?|Ht]; [done|]. destruct (C33_upsert_partial hash has_status uncond x s1 d None I1 Hm Ht) as (s2 & m' & ? & ? & ? & ? & ?); [intros V; by apply Hc|]. exists s2. split_and!; eauto. }
  destruct Q as (s2 & -> & Q2 & Q3 & Q4). cbn [fst]. split_and!.
  - by apply synced_ok.
  - intros j Pj N. change (stored (synced s2) j) with (stored s2 j). rewrite Q3; [by apply I2| |done]. intros ->. done.
  - intros i Pi. change (stored (synced s2) (x, i)) with (stored s2 (x, i)). rewrite last_for_snoc. destruct (decide (obj_id (d_obj d) = i)) as [D|D]; [rewrite <- D; exact Q4|].
    assert (N : (x, i) <> k) by (unfold k; congruence). specialize (I3 i Pi). rewrite (Q3 _ N Pi). exact I3.
Qed.
Print Assumptions C33_run.

(** ** C34 *)
Lemma patcher_found hash has_status uncond x m s t orig : target_ok x m -> (is_view_kind x = false -> up_to_date s (x, obj_id m)) -> fresh s (x, obj_id m) orig ->
  (forall old, stored s (x, obj_id m) = Some old -> obj_copy old = old) -> t <> Sync ->
  write_patch hash has_status uncond s [] t (typed x m) orig =
  match stored s (x, obj_id m) with
  | None => (s, match t with Deleted => None | _ => Some ENotFound end)
  | Some o =>
      match patch_object o (match t with Deleted => withdrawal (typed x m) | _ => typed x m end) with
      | None => (s, Some EInvalid)
      | Some o' => let '(s, e) := update_again hash has_status uncond attempts s [] (restore x o' (typed x m)) in (s, ignore_missing e)
      end
  end.
Proof.
  intros (W & P & N & G & V) Hu Hf Hc Nt. assert (F := typed_fit x m W G N). unfold write_patch. rewrite decide_False by done. rewrite (fit_gvk _ _ F). cbn [fst].
  destruct (usable orig (typed x m)) as [o|] eqn:E.
  - unfold usable in E. destruct orig as [o1|]; [|done]. case_decide as D; [|done]. injection E as <-. destruct D as (D1 & D2 & D3). rewrite (fit_gvk _ _ F) in D1. rewrite typed_namespace in D2. rewrite typed_name in D3.
    assert (Es : stored s (x, obj_id m) = Some o1) by (apply Hf; [done|]; unfold source_id, obj_id; by rewrite D1, D2, D3). rewrite Es. by rewrite (Hc o1).
  - cbn [meanwhile tail]. assert (Eg := c_get_stored x m s Hu _ F). rewrite (fit_gvk _ _ F) in Eg. cbn [fst] in Eg. rewrite Eg. done.
Qed.
Lemma stored_copy hash x m s old : cluster_ok hash s -> target_ok x m -> stored s (x, obj_id m) = Some old -> obj_copy old = old.
Proof.
  intros Hs Hm E. assert (Hh : forall z, hash z <> EmptyString) by apply Hs. destruct (stored_spec hash Hh s _ old Hs (k_proper x m Hm) (k_name x m Hm) E) as (F & _). by eapply fit_copy.
Qed.

(** An upsert on an object that exists: the strings, numbers and booleans of the
    delta are there afterwards, whatever the delta does not mention is as before,
    and no other object changes.  Not covered: positions of the names, UID and
    version; deltas with a resource version; a status that is not a map. *)
Theorem C34_patch_partial : forall hash has_status unconditional x s d orig old, cluster_ok hash s -> target_ok x (d_obj d) -> upsert (d_type d) ->
  let k := (x, obj_id (d_obj d)) in (is_view_kind x = false -> up_to_date s k) -> fresh s k orig ->
  (is_view_kind x = false -> meta (d_obj d) "resourceVersion" = None /\ map_or_none (mget (d_obj d) "status")) ->
  stored s k = Some old ->
  exists s' m', target_write hash has_status unconditional Patcher x s [] d orig = (s', None)
    /\ cluster_ok hash s' /\ stored s' k = Some m' /\ source_id m' = k /\ frame s s' k
    /\ (forall ps v, far ps -> leaf v -> at_path (JMap (d_obj d)) ps = Some v -> at_path (JMap m') ps = Some v)
    /\ (forall ps, far ps -> untouched (JMap (d_obj d)) ps -> at_path (JMap m') ps = at_path (JMap old) ps)
    /\ (meta (d_obj d) "uid" = None -> meta m' "uid" = meta old "uid").
Proof.
  intros hash has_status uncond x s d orig old Hs Hm Ht k Hu Hf Hv E. set (m := d_obj d) in *. assert (Hm' := Hm). destruct Hm' as (W & P & N & G & V).
  assert (Fn := typed_fit x m W G N).
  destruct (patch_write hash has_status uncond x m Hm s old (typed x m) Hs E) as (o' & s' & e & m' & P1 & P2 & P3 & P4 & P5 & P6 & P7 & P8 & P9 & P10).
  { by apply typed_owf. } { apply Fn. } { intros Vx. rewrite Vx in V. apply typed_nnz; [done|apply V]. } { intros Vx. rewrite typed_meta. by apply Hv. } { intros Vx _. rewrite typed_get by done. by apply Hv. }
  assert (Fo : owf old). { assert (Hh : forall z, hash z <> EmptyString) by apply Hs. by destruct (stored_spec hash Hh s k old Hs (k_proper x m Hm) (k_name x m Hm) E) as ([] & _). }
  exists s', m'. split_and!; try done.
  - cbn [target_write]. fold m. change (set_gvk (obj_copy m) x) with (typed x m). 
    rewrite (patcher_found hash has_status uncond x m s _ orig Hm Hu Hf) by first [intros o1 E1; exact (stored_copy hash x m s o1 Hs Hm E1)|destruct Ht as [->|[->|[->| ->]]]; done]. fold k. rewrite E.
    assert (EQ : (match d_type d with Deleted => withdrawal (typed x m) | _ => typed x m end) = typed x m) by (by destruct Ht as [->|[->|[->| ->]]]). rewrite EQ, P2, P3. by rewrite P4.
  - by apply fit_source.
  - intros ps v Fp Lv Ev. rewrite P9 by done. apply patch_leaf; [done|by apply typed_owf|done|]. by rewrite (far_at _ _ ps (new_far x m) Fp).
  - intros ps Fp U. rewrite P9 by done. apply patch_local; [done|by apply typed_owf|]. eapply far_untouched; [by apply (m_fine x)|apply has_fine, Fn| |done..].
    destruct (new_far x m) as [H1 H2]. split; intros; symmetry; [by apply H1|by apply H2].
  - intros Eu. apply P10. by rewrite typed_meta.
Qed.
Print Assumptions C34_patch_partial.

(** A deletion takes out of the object the strings, numbers and booleans that are
    map entries of the delta; whatever the delta does not mention stays, and so do
    all other objects. *)
Theorem C34_withdraw_partial : forall hash has_status unconditional x s d orig old, cluster_ok hash s -> target_ok x (d_obj d) -> d_type d = Deleted ->
  let k := (x, obj_id (d_obj d)) in (is_view_kind x = false -> up_to_date s k) -> fresh s k orig ->
  (is_view_kind x = false -> meta (d_obj d) "resourceVersion" = None /\ map_or_none (mget (d_obj d) "status")) ->
  stored s k = Some old ->
  exists s' m', target_write hash has_status unconditional Patcher x s [] d orig = (s', None)
    /\ cluster_ok hash s' /\ stored s' k = Some m' /\ source_id m' = k /\ frame s s' k
    /\ (forall ps f v w, far (ps ++ [Key f]) -> leaf v -> leaf w -> at_path (JMap (d_obj d)) (ps ++ [Key f]) = Some v -> at_path (JMap old) (ps ++ [Key f]) = Some w ->
          at_path (JMap m') (ps ++ [Key f]) = None)
    /\ (forall ps, far ps -> untouched (JMap (d_obj d)) ps -> at_path (JMap m') ps = at_path (JMap old) ps).
Proof.
  intros hash has_status uncond x s d orig old Hs Hm Ht k Hu Hf Hv E. set (m := d_obj d) in *. assert (Hm' := Hm). destruct Hm' as (W & P & N & G & V).
  assert (Fn := typed_fit x m W G N).
  destruct (patch_write hash has_status uncond x m Hm s old (wpatch x m) Hs E) as (o' & s' & e & m' & P1 & P2 & P3 & P4 & P5 & P6 & P7 & P8 & P9 & P10).
  { by apply wpatch_owf. } { by apply wpatch_has. } { intros Vx. by apply wpatch_nnz. } { intros Vx. apply wpatch_version; [done|]. by apply Hv. } { intros Vx _. apply wpatch_status; [done|]. by apply Hv. }
  assert (Fo : owf old). { assert (Hh : forall z, hash z <> EmptyString) by apply Hs. by destruct (stored_spec hash Hh s k old Hs (k_proper x m Hm) (k_name x m Hm) E) as ([] & _). }
  exists s', m'. split_and!; try done.
  - cbn [target_write]. fold m. change (set_gvk (obj_copy m) x) with (typed x m). rewrite Ht.
    rewrite (patcher_found hash has_status uncond x m s _ orig Hm Hu Hf) by first [done|intros o1 E1; exact (stored_copy hash x m s o1 Hs Hm E1)]. fold k. rewrite E. fold (wpatch x m). rewrite P2, P3. by rewrite P4.
  - by apply fit_source.
  - intros ps f v w Fp Lv Lw Ev Ew. rewrite P9 by done. eapply patch_gone; [done|by apply wpatch_owf|exact Lw|done|]. exact (wpatch_at x m Hm _ v Fp Lv Ev).
  - intros ps Fp U. rewrite P9 by done. apply patch_local; [done|by apply wpatch_owf|]. by apply wpatch_untouched.
Qed.
Print Assumptions C34_withdraw_partial.

(** An upsert and the deletion of the same delta: what the delta does not mention
    is as it was before both, the delta's own entries are gone. *)
Theorem C34_round_trip_partial : forall hash has_status unconditional x s d d' orig orig' old, cluster_ok hash s -> target_ok x (d_obj d) ->
  upsert (d_type d) -> d_type d' = Deleted -> d_obj d' = d_obj d ->
  let k := (x, obj_id (d_obj d)) in (is_view_kind x = false -> up_to_date s k) ->
  (is_view_kind x = false -> meta (d_obj d) "resourceVersion" = None /\ map_or_none (mget (d_obj d) "status")) ->
  stored s k = Some old -> fresh s k orig ->
  let s1 := synced (target_write hash has_status unconditional Patcher x s [] d orig).1 in fresh s1 k orig' ->
  exists s' m', target_write hash has_status unconditional Patcher x s1 [] d' orig' = (s', None)
    /\ cluster_ok hash s' /\ stored s' k = Some m' /\ source_id m' = k /\ frame s s' k
    /\ (forall ps f v, far (ps ++ [Key f]) -> leaf v -> at_path (JMap (d_obj d)) (ps ++ [Key f]) = Some v -> at_path (JMap m') (ps ++ [Key f]) = None)
    /\ (forall ps, far ps -> untouched (JMap (d_obj d)) ps -> at_path (JMap m') ps = at_path (JMap old) ps).
Proof.
  intros hash has_status uncond x s d d' orig orig' old Hs Hm Ht Ht' Ed k Hu Hv E Hf s1 Hf'.
  destruct (C34_patch_partial hash has_status uncond x s d orig old Hs Hm Ht Hu Hf Hv E) as (s2 & m2 & A1 & A2 & A3 & A4 & A5 & A6 & A7 & _).
  assert (Es : s1 = synced s2) by (unfold s1; by rewrite A1). rewrite Es in Hf' |- *. unfold k in *. rewrite <- Ed in Hm, Hv, A3, A4, A5, Hf' |- *.
  destruct (C34_withdraw_partial hash has_status uncond x (synced s2) d' orig' m2 (synced_ok _ _ A2) Hm Ht') as (s' & m' & B1 & B2 & B3 & B4 & B5 & B6 & B7); [done..|].
  exists s', m'. split_and!; try done.
  - intros j J Pj. rewrite B5 by done. by apply A5.
  - intros ps f v Fp Lv Ev. eapply (B6 ps f v v); try done. apply A6; try done. by rewrite <- Ed.
  - intros ps Fp U. rewrite B7 by done. apply A7; [done|]. by rewrite <- Ed.
Qed.
Print Assumptions C34_round_trip_partial.

(** If there is no object: an upsert fails, a deletion does not; nothing changes. *)
Theorem C34_missing : forall hash has_status unconditional x s d orig, cluster_ok hash s -> target_ok x (d_obj d) -> d_type d = Deleted \/ upsert (d_type d) ->
  let k := (x, obj_id (d_obj d)) in (is_view_kind x = false -> up_to_date s k) -> fresh s k orig -> stored s k = None ->
  target_write hash has_status unconditional Patcher x s [] d orig = (s, if decide (d_type d = Deleted) then None else Some ENotFound).
Proof.
  intros hash has_status uncond x s d orig Hs Hm Ht k Hu Hf E. cbn [target_write]. change (set_gvk (obj_copy (d_obj d)) x) with (typed x (d_obj d)). 
  rewrite (patcher_found hash has_status uncond x (d_obj d) s _ orig Hm Hu Hf) by first [intros o1 E1; exact (stored_copy hash x (d_obj d) s o1 Hs Hm E1)|destruct Ht as [->|[->|[->|[->| ->]]]]; done]. fold k. rewrite E.
  by destruct Ht as [->|[->|[->|[->| ->]]]].
Qed.
Print Assumptions C34_missing.

(** *** A cache that lags behind (native objects) *)

(** The object exists but the cache does not know it yet: the write still succeeds
    and the object has the fields, labels and annotations of the delta; those of
    others are lost. *)
Theorem C33_late_cache_partial : forall hash has_status unconditional x s d orig old, cluster_ok hash s -> target_ok x (d_obj d) -> upsert (d_type d) -> is_view_kind x = false ->
  let k := (x, obj_id (d_obj d)) in stored s k = Some old -> cl_cached s !! k = None -> unconditional x = true ->
  exists s' m', target_write hash has_status unconditional Updater x s [] d orig = (s', None)
    /\ cluster_ok hash s' /\ stored s' k = Some m' /\ frame s s' k /\ source_id m' = k
    /\ (forall f, f ∉ ["apiVersion"; "kind"; "metadata"; "status"]%string -> mget m' f = mget (d_obj d) f)
    /\ mget m' "status" = expected_status has_status x (d_obj d) (Some old)
    /\ (forall f j, f = "labels"%string \/ f = "annotations"%string -> tag m' f j = tag (d_obj d) f j).
Proof.
  intros hash has_status uncond x s d orig old Hs Hm Ht V k E C U. destruct (late_cache hash has_status uncond x (d_obj d) Hm V s (d_type d) old Hs Ht E C U) as (s' & m' & H1 & H2).
  destruct (late_tags hash x (d_obj d) Hm V s m' _ s' H2) as (T1 & T2 & T3). exists s', m'. split; [exact H1|]. destruct H2. done.
Qed.
Print Assumptions C33_late_cache_partial.
(** Kinds that must be updated with a version refuse it. *)
Theorem C33_late_cache_strict : forall hash has_status unconditional x s d orig old, cluster_ok hash s -> target_ok x (d_obj d) -> upsert (d_type d) -> is_view_kind x = false ->
  let k := (x, obj_id (d_obj d)) in stored s k = Some old -> cl_cached s !! k = None -> unconditional x = false ->
  target_write hash has_status unconditional Updater x s [] d orig = (s, Some EInvalid).
Proof. intros hash has_status uncond x s d orig old Hs Hm Ht V k E C U. exact (late_cache_strict hash has_status uncond x (d_obj d) Hm V s (d_type d) old Hs Ht E C U). Qed.
Print Assumptions C33_late_cache_strict.
(** The cache has an older version of the object: the write fails, so that it can be
    repeated, and changes nothing. *)
Theorem C33_conflict : forall hash has_status unconditional x s d orig o old, cluster_ok hash s -> target_ok x (d_obj d) -> upsert (d_type d) -> is_view_kind x = false ->
  let k := (x, obj_id (d_obj d)) in stored s k = Some old -> cl_cached s !! k = Some o -> earlier k o -> get_version o <> get_version old ->
  target_write hash has_status unconditional Updater x s [] d orig = (s, Some EConflict).
Proof.
  intros hash has_status uncond x s d orig o old Hs Hm Ht V k E C (O1 & O2 & O3 & O4 & O5) D. apply (conflict hash has_status uncond x (d_obj d) Hm V s (d_type d) o old Hs Ht E C); [|done|done].
  apply native_fit. by split_and!.
Qed.
Print Assumptions C33_conflict.
(** Refuted for deleted objects: if the cache does not know about the deletion yet,
    the write reports success although there is no object. *)
Theorem C33_gone_refuted : forall hash has_status unconditional x s d orig o, cluster_ok hash s -> target_ok x (d_obj d) -> upsert (d_type d) -> is_view_kind x = false ->
  let k := (x, obj_id (d_obj d)) in stored s k = None -> cl_cached s !! k = Some o -> earlier k o ->
  target_write hash has_status unconditional Updater x s [] d orig = (s, None).
Proof.
  intros hash has_status uncond x s d orig o Hs Hm Ht V k E C (O1 & O2 & O3 & O4 & O5). apply (gone hash has_status uncond x (d_obj d) Hm V s (d_type d) o Hs Ht E C).
  apply native_fit. by split_and!.
Qed.
Print Assumptions C33_gone_refuted.

(** ** Examples *)
Definition h0 (s : string) : string := String "h" s.
Definition nothing : cluster := Cluster ∅ ∅ ∅ 0.
Lemma nothing_ok : cluster_ok h0 nothing.
Proof.
  split_and!; [done| |intros k m E; cbn [cl_live nothing] in E; by rewrite lookup_empty in E]. exists (fun s => map snd (map_to_list s)), []. split_and!; [intros s; done|constructor|done].
Qed.
Definition yes (x : gvk) : bool := true.
Definition deploy : gvk := GVK "apps" "v1" "Deployment".
Definition own : gvk := view_gvk "op" "V".
Lemma own_own : own_kind own.
Proof. exists "op"%string, "V"%string. by split. Qed.
Definition item (labels spec status : jobj) : jobj :=
  [("metadata"%string, JMap [("labels"%string, JMap labels); ("name"%string, JStr "a"); ("namespace"%string, JStr "ns")]); ("spec"%string, JMap spec); ("status"%string, JMap status)].
Definition item1 := item [("app"%string, JStr "x")] [("n"%string, JInt 1); ("only"%string, JBool true)] [("ready"%string, JInt 0)].
Definition item2 := item [("tier"%string, JStr "y")] [("n"%string, JInt 2)] [("ready"%string, JInt 1)].
Definition put (x : gvk) (s : cluster) (m : jobj) : cluster := synced (target_write h0 yes yes Updater x s [] (Delta Upserted m) None).1.
Lemma put_ok x s m : is_view_kind x = false -> cluster_ok h0 s -> target_ok x m -> up_to_date s (x, obj_id m) -> cluster_ok h0 (put x s m).
Proof.
  intros V Hs Hm U. destruct (C33_upsert_partial h0 yes yes x s (Delta Upserted m) None Hs Hm) as (s' & m' & E & Hs' & _); [by right; right; left|done|]. unfold put. rewrite E. exact Hs'.
Qed.
Definition look (s : cluster) (x : gvk) (path : list string) : option json := stored s (x, ("ns"%string, "a"%string)) ≫= fun m => nested_get m path.
Ltac wf_obj := repeat first [apply owf_nil|apply (owf_set [])|constructor|done].
Lemma item_ok labels spec status x : owf labels -> owf spec -> owf status -> nonegzero (JMap labels) -> nonegzero (JMap spec) -> nonegzero (JMap status) -> gvk_ok x -> (is_view_kind x = true -> own_kind x) -> target_ok x (item labels spec status).
Proof.
  intros. assert (W : owf (item labels spec status)) by (unfold item; repeat (constructor; try done)). split_and!; [done|done|done|done|]. destruct (is_view_kind x); [|done]. split; [by auto|]. repeat (constructor; try done).
Qed.
(** The theorems apply to both kinds of target: two writes, the second over the
    first, and a deletion. *)
Example ex_C33 :
  target_ok own item1 /\ target_ok own item2 /\ target_ok deploy item1 /\ target_ok deploy item2
  /\ (let s := put own (put own nothing item1) item2 in
      look s own ["spec"%string] = Some (JMap [("n"%string, JInt 2)]) /\ look s own ["status"%string; "ready"%string] = Some (JInt 1)
      /\ look s own ["metadata"%string; "labels"%string] = Some (JMap [("app"%string, JStr "x"); ("tier"%string, JStr "y")]))
  /\ (let s := put deploy (put deploy nothing item1) item2 in
      look s deploy ["spec"%string] = Some (JMap [("n"%string, JInt 2)]) /\ look s deploy ["status"%string; "ready"%string] = Some (JInt 1)
      /\ look s deploy ["metadata"%string; "labels"%string] = Some (JMap [("app"%string, JStr "x"); ("tier"%string, JStr "y")])
      /\ (is_view_kind deploy = false -> up_to_date s (deploy, ("ns"%string, "a"%string)))
      /\ look s deploy ["metadata"%string; "name"%string] = Some (JStr "a")
      /\ stored (target_write h0 yes yes Updater deploy s [] (Delta Deleted item2) None).1 (deploy, ("ns"%string, "a"%string)) = None).
Proof.
  split; [by apply item_ok; try (intros; apply own_own); repeat (constructor; try done)|]. split; [by apply item_ok; try (intros; apply own_own); repeat (constructor; try done)|].
  split; [by apply item_ok; repeat (constructor; try done)|]. split; [by apply item_ok; repeat (constructor; try done)|].
  split; [cbn zeta; split_and!; vm_compute; reflexivity|]. cbn zeta. split_and!; try (vm_compute; reflexivity).
Qed.

(** The cases of a cache that lags behind: it knows nothing, an old version, or an
    object that is gone. *)
Definition unsynced (s : cluster) (cached : gmap (gvk * (string * string)) jobj) : cluster := Cluster (cl_views s) (cl_live s) cached (cl_next s).
Lemma unsynced_stored s c k : stored (unsynced s c) k = stored s k.
Proof. reflexivity. Qed.
Lemma unsynced_cached s c : cl_cached (unsynced s c) = c.
Proof. reflexivity. Qed.
Definition one_a : cluster := put deploy nothing item1.
Lemma live_stored s k : is_view_kind k.1 = false -> cl_live s !! k = stored s k.
Proof. intros V. unfold stored. by rewrite V. Qed.
Lemma one_ok : native_ok one_a.
Proof. apply (put_ok deploy nothing item1); [done|apply nothing_ok|by apply item_ok; repeat (constructor; try done)|done]. Qed.
Definition two_a : cluster := put deploy one_a item2.
Definition k_a : gvk * (string * string) := (deploy, ("ns"%string, "a"%string)).
Lemma one_version : get_version <$> stored one_a k_a = Some "0"%string.
Proof. vm_compute. reflexivity. Qed.
Lemma two_version : get_version <$> stored two_a k_a = Some "2"%string.
Proof. vm_compute. reflexivity. Qed.
Lemma late_look : look (target_write h0 yes yes Updater deploy (unsynced one_a ∅) [] (Delta Added item2) None).1 deploy ["spec"%string; "n"%string] = Some (JInt 2).
Proof. vm_compute. reflexivity. Qed.
Opaque one_a two_a.
Example ex_C33_late :
  let k := k_a in
  (exists old, stored (unsynced one_a ∅) k = Some old) /\ cl_cached (unsynced one_a ∅) !! k = None
  /\ look (target_write h0 yes yes Updater deploy (unsynced one_a ∅) [] (Delta Added item2) None).1 deploy ["spec"%string; "n"%string] = Some (JInt 2)
  /\ (exists o old, stored (unsynced two_a (cl_live one_a)) k = Some old /\ cl_cached (unsynced two_a (cl_live one_a)) !! k = Some o /\ earlier k o /\ get_version o <> get_version old)
  /\ stored (unsynced nothing (cl_live one_a)) k = None.
Proof.
  cbv zeta. rewrite !unsynced_stored, !unsynced_cached, live_stored by done. assert (E1 := one_version). assert (E2 := two_version).
  apply fmap_Some in E1 as (o & Eo & E1). apply fmap_Some in E2 as (old & Ew & E2). split_and!.
  - by exists o.
  - apply lookup_empty.
  - apply late_look.
  - exists o, old. split_and!; [done|done| |congruence]. assert (N := one_ok). rewrite <- live_stored in Eo by done. destruct (N _ _ Eo) as (_ & N1 & N2 & N3 & N4 & N5). by split_and!.
  - unfold stored. cbn. apply lookup_empty.
Qed.

(** *** Where C33 fails *)

(** The status of a new native object is lost although the write succeeds. *)
Theorem C33_status_lost_refuted : let out := target_write h0 yes yes Updater deploy nothing [] (Delta Added item1) None in
  out.2 = None /\ mget item1 "status" = Some (JMap [("ready"%string, JInt 0)])
  /\ look out.1 deploy ["spec"%string; "n"%string] = Some (JInt 1) /\ look out.1 deploy ["status"%string] = None.
Proof. cbn zeta. split_and!; vm_compute; reflexivity. Qed.
Print Assumptions C33_status_lost_refuted.
(** A delta without a status does not take away the status of a native object. *)
Definition item3 : jobj := mdel item2 "status".
Theorem C33_status_stays_refuted : let s := put deploy (put deploy (put deploy nothing item1) item2) item3 in
  mget item3 "status" = None /\ look s deploy ["status"%string; "ready"%string] = Some (JInt 1).
Proof. cbn zeta. split; vm_compute; reflexivity. Qed.
Print Assumptions C33_status_stays_refuted.
(** Other metadata of the delta are dropped: finalizers, owners. *)
Definition item4 : jobj := nested_set' item1 ["metadata"; "finalizers"] (JList [JStr "f"]).
Theorem C33_metadata_refuted : let s := put own nothing item4 in
  meta item4 "finalizers" = Some (JList [JStr "f"]) /\ look s own ["metadata"%string; "name"%string] = Some (JStr "a") /\ look s own ["metadata"%string; "finalizers"%string] = None.
Proof. cbn zeta. split_and!; vm_compute; reflexivity. Qed.
Print Assumptions C33_metadata_refuted.
(** One label that is not a string loses all labels. *)
Definition item5 : jobj := item [("app"%string, JStr "x"); ("n"%string, JInt 1)] [] [].
Theorem C33_labels_refuted : let s := put own nothing item5 in
  nested_get item5 ["metadata"; "labels"; "app"]%string = Some (JStr "x") /\ look s own ["metadata"%string; "name"%string] = Some (JStr "a") /\ look s own ["metadata"%string; "labels"%string] = None.
Proof. cbn zeta. split_and!; vm_compute; reflexivity. Qed.
Print Assumptions C33_labels_refuted.
(** Labels that the delta no longer has stay. *)
Theorem C33_old_labels_refuted : let s := put own (put own nothing item1) item2 in
  nested_get item2 ["metadata"; "labels"; "app"]%string = None /\ look s own ["metadata"%string; "labels"%string; "app"%string] = Some (JStr "x").
Proof. cbn zeta. split; vm_compute; reflexivity. Qed.
Print Assumptions C33_old_labels_refuted.
(** For a view kind that is not declared by an operator (its group has no operator
    name, or one with dots) the second write succeeds without any effect. *)
Definition odd : gvk := GVK "a.b.view.dcontroller.io" "v1alpha1" "V".
Theorem C33_other_views_refuted : let out := target_write h0 yes yes Updater odd (put odd nothing item1) [] (Delta Updated item2) None in
  out.2 = None /\ nested_get item2 ["spec"; "n"]%string = Some (JInt 2) /\ look out.1 odd ["spec"%string; "n"%string] = Some (JInt 1).
Proof. cbn zeta. split_and!; vm_compute; reflexivity. Qed.
Print Assumptions C33_other_views_refuted.

(** *** C34: an example and where it fails *)
Definition part : jobj :=
  [("metadata"%string, JMap [("labels"%string, JMap [("p"%string, JStr "q")]); ("name"%string, JStr "a"); ("namespace"%string, JStr "ns")]); ("spec"%string, JMap [("extra"%string, JMap [("z"%string, JInt 7)])])].
Definition add_part (x : gvk) (s : cluster) : cluster := synced (target_write h0 yes yes Patcher x s [] (Delta Added part) None).1.
Definition drop_part (x : gvk) (s : cluster) : cluster := synced (target_write h0 yes yes Patcher x s [] (Delta Deleted part) None).1.
Lemma part_ok x : gvk_ok x -> (is_view_kind x = true -> own_kind x) -> target_ok x part.
Proof.
  intros G O. assert (W : owf part) by (unfold part; repeat (constructor; try done)). split_and!; [done|done|done|done|]. destruct (is_view_kind x); [|done]. split; [by auto|]. repeat (constructor; try done).
Qed.
Example ex_C34 :
  target_ok own part /\ target_ok deploy part /\ meta part "resourceVersion" = None /\ map_or_none (mget part "status")
  /\ leaf (JInt 7) /\ far [Key "spec"; Key "extra"; Key "z"]%string /\ at_path (JMap part) [Key "spec"; Key "extra"; Key "z"]%string = Some (JInt 7)
  /\ far [Key "metadata"; Key "labels"; Key "app"]%string /\ untouched (JMap part) [Key "metadata"; Key "labels"; Key "app"]%string
  /\ (let s := add_part deploy (put deploy nothing item1) in
      look s deploy ["spec"%string; "extra"%string; "z"%string] = Some (JInt 7) /\ look s deploy ["spec"%string; "n"%string] = Some (JInt 1)
      /\ look s deploy ["metadata"%string; "labels"%string] = Some (JMap [("app"%string, JStr "x"); ("p"%string, JStr "q")]))
  /\ (let s := drop_part deploy (add_part deploy (put deploy nothing item1)) in
      look s deploy ["spec"%string; "extra"%string; "z"%string] = None /\ look s deploy ["spec"%string; "n"%string] = Some (JInt 1)
      /\ look s deploy ["metadata"%string; "labels"%string] = Some (JMap [("app"%string, JStr "x")])).
Proof.
  split; [apply part_ok; [done|intros; apply own_own]|]. split; [by apply part_ok|]. split_and!; try done; try (vm_compute; reflexivity); cbn [far];
    repeat (apply not_elem_of_cons; split; [done|]); apply not_elem_of_nil.
Qed.
(** An addition and its deletion are not always without effect: empty maps stay. *)
Theorem C34_empty_maps_refuted : let s := put own nothing item1 in
  look s own ["spec"%string; "extra"%string] = None /\ look (drop_part own (add_part own s)) own ["spec"%string; "extra"%string] = Some (JMap []).
Proof. cbn zeta. split; vm_compute; reflexivity. Qed.
Print Assumptions C34_empty_maps_refuted.
(** Elements of lists are not taken out again; they become null. *)
Definition listed : jobj := [("metadata"%string, JMap [("name"%string, JStr "a"); ("namespace"%string, JStr "ns")]); ("spec"%string, JMap [("l"%string, JList [JStr "x"])])].
Theorem C34_lists_refuted : let s := put own nothing item1 in
  let s' := synced (target_write h0 yes yes Patcher own s [] (Delta Added listed) None).1 in
  let s'' := (target_write h0 yes yes Patcher own s' [] (Delta Deleted listed) None).1 in
  look s own ["spec"%string; "l"%string] = None /\ look s' own ["spec"%string; "l"%string] = Some (JList [JStr "x"]) /\ look s'' own ["spec"%string; "l"%string] = Some (JList [JNull]).
Proof. cbn zeta. split_and!; vm_compute; reflexivity. Qed.
Print Assumptions C34_lists_refuted.
(** A value that the delta replaced does not come back. *)
Definition over : jobj := [("metadata"%string, JMap [("name"%string, JStr "a"); ("namespace"%string, JStr "ns")]); ("spec"%string, JMap [("n"%string, JInt 5)])].
Theorem C34_replaced_refuted : let s := put own nothing item1 in
  let s' := synced (target_write h0 yes yes Patcher own s [] (Delta Added over) None).1 in
  let s'' := (target_write h0 yes yes Patcher own s' [] (Delta Deleted over) None).1 in
  look s own ["spec"%string; "n"%string] = Some (JInt 1) /\ look s'' own ["spec"%string; "n"%string] = None /\ look s'' own ["spec"%string; "only"%string] = Some (JBool true).
Proof. cbn zeta. split_and!; vm_compute; reflexivity. Qed.
Print Assumptions C34_replaced_refuted.
(** With the object of an older event as the base, changes that others have made
    since are undone, although the delta does not mention them: for views, and for
    native objects, where the first attempt fails with a conflict and the next one
    takes only the version of the current object. *)
Theorem C34_stale_refuted : forall x, x = own \/ x = deploy ->
  let s := put x nothing item1 in let orig := stored s (x, ("ns"%string, "a"%string)) in
  let s1 := put x s (mset item1 "spec" (JMap [("n"%string, JInt 9)])) in
  let out := target_write h0 yes yes Patcher x s1 [] (Delta Added part) orig in
  untouched (JMap part) [Key "spec"; Key "n"]%string
  /\ look s1 x ["spec"%string; "n"%string] = Some (JInt 9) /\ out.2 = None /\ look out.1 x ["spec"%string; "n"%string] = Some (JInt 1).
Proof. intros x [->| ->]; cbn zeta; (split; [done|]); split_and!; vm_compute; reflexivity. Qed.
Print Assumptions C34_stale_refuted.
