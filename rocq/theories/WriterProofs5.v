(** Proofs about the target writer: a cache that lags behind. *)
From Verif Require Import WriterModel ZSetSpec OpsSpec GatherSpec ExecSpec JsonSpec CleanSpec PipelineSpec GroupSpec ValueSpec ViewSpec WriterSpec.
From Verif Require Import JsonProofs CleanProofs ReconcileProofs ObjProofs ValueProofs GroupProofs ViewProofs ViewProofs2 WriterProofs WriterProofs2 WriterProofs3.

Section writer.
Variable hash : string -> string.
Variable has_status unconditional : gvk -> bool.
Variables (x : gvk) (m : jobj).
Hypothesis Hm : target_ok x m.
Hypothesis Vx : is_view_kind x = false.
Notation k := (x, obj_id m).
Notation new := (typed x m).
Notation write_update := (write_update hash has_status unconditional).

Lemma upsert_eq s t : upsert t ->
  write_update x s [] t new = let '(s, _, e) := create_or_update hash has_status unconditional s [] (updated x new) (shell x new) in (s, ignore_missing e).
Proof. by intros [->|[->|[->| ->]]]. Qed.
Lemma fit_cached s obj : fit k obj -> c_get s (get_gvk obj) (get_namespace obj) (get_name obj) = cl_cached s !! k.
Proof.
  intros F. rewrite (fit_gvk k obj) by done. assert (E := fit_id _ _ F). unfold obj_id in E. cbn in E. injection E as E1 E2. unfold c_get. cbn [fst]. rewrite Vx, E1, E2. done.
Qed.
Lemma up_meta obj f : fit k obj -> f ∉ ["labels"; "annotations"; "name"; "namespace"]%string -> meta (updated x new obj) f = meta obj f.
Proof.
  intros F Hf. destruct Hm as (W & P & Nn & G & V). assert (W' := typed_owf x m W). assert (N' : get_name new <> EmptyString) by (by rewrite typed_name). assert (I := set_gvk_is (obj_copy m) x). fold (typed x m) in I. assert (Fo := has_fine _ (fit_has _ _ F)). assert (Wo := fit_owf _ _ F). by apply updated_meta.
Qed.
Lemma up_get obj f : fit k obj -> f <> "metadata"%string -> mget (updated x new obj) f = mget new f.
Proof.
  intros F Hf. destruct Hm as (W & P & Nn & G & V). assert (W' := typed_owf x m W). assert (N' : get_name new <> EmptyString) by (by rewrite typed_name). assert (I := set_gvk_is (obj_copy m) x). fold (typed x m) in I. assert (Fo := has_fine _ (fit_has _ _ F)). assert (Wo := fit_owf _ _ F). by apply updated_get.
Qed.
Lemma up_fit obj : fit k obj -> storable k (updated x new obj).
Proof. intros F. apply updated_storable; [done|done|congruence]. Qed.

Lemma created_again s old : cluster_ok hash s -> stored s k = Some old -> cl_cached s !! k = None ->
  let m1 := updated x new (shell x new) in let m2 := updated x new m1 in
  create_or_update hash has_status unconditional s [] (updated x new) (shell x new) = let '(s, w, _, e) := update_both hash has_status unconditional s [] m2 in (s, w, e).
Proof.
  intros Hs E C m1 m2. assert (F0 := shell_fit x m Hm). assert (F1 := proj1 (up_fit _ F0)). unfold create_or_update. cbn [meanwhile tail]. rewrite (fit_cached s) by done. rewrite C. fold m1.
  unfold c_create. rewrite (fit_gvk k m1) by done. cbn [fst]. rewrite Vx, (fit_key k m1) by done. rewrite stored_native in E by done. by rewrite E.
Qed.
Lemma late_cache s t old : cluster_ok hash s -> upsert t -> stored s k = Some old -> cl_cached s !! k = None -> unconditional x = true ->
  let m2 := updated x new (updated x new (shell x new)) in
  exists s' m', write_update x s [] t new = (s', None) /\ wrote hash s k m2 (expected_status has_status x m (Some old)) m' s'.
Proof.
  intros Hs Ht E C U m2. assert (Hh : forall z, hash z <> EmptyString) by apply Hs. assert (F0 := shell_fit x m Hm). assert (F1 := proj1 (up_fit _ F0)). assert (S2 := up_fit _ F1). fold m2 in S2.
  rewrite upsert_eq by done. rewrite (created_again s old) by done. cbv zeta. fold m2.
  assert (V2 : get_version m2 = EmptyString).
  { assert (meta m2 "resourceVersion" = None) as E2.
    { unfold m2. do 2 (rewrite up_meta; [|done|repeat (apply not_elem_of_cons; split; [done|]); apply not_elem_of_nil]). by apply shell_meta. }
    unfold get_version. by rewrite meta_str, E2. }
  destruct (update_spec hash has_status unconditional Hh s k m2 old) as (s' & m' & o & H1 & H2 & H3); [done..|by apply k_name|done| |].
  { right. right. done. }
  rewrite H1. exists s', m'. split.
  - unfold update_error, ignore_missing. destruct (is_view_kind _ || _); [done|]. by destruct (mget m2 "status") as [[]|].
  - replace (expected_status has_status x m (Some old)) with (status_after has_status k m2 old); [done|]. unfold status_after, expected_status. cbn [fst]. rewrite Vx. cbn [orb].
    assert (Est : mget m2 "status" = mget m "status") by (unfold m2; rewrite up_get by done; by apply typed_get). rewrite Est. by destruct (has_status x).
Qed.
Lemma late_cache_strict s t old : cluster_ok hash s -> upsert t -> stored s k = Some old -> cl_cached s !! k = None -> unconditional x = false ->
  write_update x s [] t new = (s, Some EInvalid).
Proof.
  intros Hs Ht E C U. assert (F0 := shell_fit x m Hm). assert (F1 := proj1 (up_fit _ F0)). assert (F2 := proj1 (up_fit _ F1)).
  rewrite upsert_eq by done. rewrite (created_again s old) by done. cbv zeta. set (m2 := updated x new (updated x new (shell x new))) in *.
  assert (V2 : get_version m2 = EmptyString).
  { assert (meta m2 "resourceVersion" = None) as E2.
    { unfold m2. do 2 (rewrite up_meta; [|done|repeat (apply not_elem_of_cons; split; [done|]); apply not_elem_of_nil]). by apply shell_meta. }
    unfold get_version. by rewrite meta_str, E2. }
  unfold update_both. cbn [meanwhile]. unfold c_update. rewrite (fit_gvk k m2) by done. cbn [fst]. rewrite Vx, (fit_key k m2) by done. rewrite stored_native in E by done. rewrite E.
  unfold admits. rewrite V2. cbn [String.eqb]. rewrite (fit_gvk k m2) by done. cbn [fst]. by rewrite U.
Qed.
Lemma found_old s o : cl_cached s !! k = Some o ->
  create_or_update hash has_status unconditional s [] (updated x new) (shell x new) = let '(s, w, _, e) := update_both hash has_status unconditional s [] (updated x new o) in (s, w, e).
Proof. intros C. unfold create_or_update. cbn [meanwhile tail]. rewrite (fit_cached s) by (by apply shell_fit). by rewrite C. Qed.
Lemma conflict s t o old : cluster_ok hash s -> upsert t -> stored s k = Some old -> cl_cached s !! k = Some o -> fit k o -> get_version o <> EmptyString -> get_version o <> get_version old ->
  write_update x s [] t new = (s, Some EConflict).
Proof.
  intros Hs Ht E C F N D. assert (F1 := proj1 (up_fit _ F)). rewrite upsert_eq by done. rewrite (found_old s o) by done. set (m1 := updated x new o) in *.
  assert (V1 : get_version m1 = get_version o) by (apply get_version_meta; unfold m1; apply up_meta; [done|]; repeat (apply not_elem_of_cons; split; [done|]); apply not_elem_of_nil).
  unfold update_both. cbn [meanwhile]. unfold c_update. rewrite (fit_gvk k m1) by done. cbn [fst]. rewrite Vx, (fit_key k m1) by done. rewrite stored_native in E by done. rewrite E.
  unfold admits. rewrite V1. rewrite (proj2 (String.eqb_neq _ _)) by done. rewrite (proj2 (String.eqb_neq _ _)) by done. done.
Qed.
Lemma gone s t o : cluster_ok hash s -> upsert t -> stored s k = None -> cl_cached s !! k = Some o -> fit k o -> write_update x s [] t new = (s, None).
Proof.
  intros Hs Ht E C F. assert (F1 := proj1 (up_fit _ F)). rewrite upsert_eq by done. rewrite (found_old s o) by done. set (m1 := updated x new o) in *.
  unfold update_both. cbn [meanwhile]. unfold c_update. rewrite (fit_gvk k m1) by done. cbn [fst]. rewrite Vx, (fit_key k m1) by done. rewrite stored_native in E by done. by rewrite E.
Qed.
Lemma late_tags s m' st s' : wrote hash s k (updated x new (updated x new (shell x new))) st m' s' ->
  source_id m' = k /\ (forall f, f ∉ ["apiVersion"; "kind"; "metadata"; "status"]%string -> mget m' f = mget m f)
  /\ (forall f j, f = "labels"%string \/ f = "annotations"%string -> tag m' f j = tag m f j).
Proof.
  intros Hw. destruct Hw as [_ _ Fw [L1 L2] _ _]. destruct Hm as (W & P & Nn & G & V). assert (W' := typed_owf x m W). assert (F0 := shell_fit x m Hm). assert (F1 := proj1 (up_fit _ F0)). split_and!.
  - by apply fit_source.
  - intros f Hf. rewrite !not_elem_of_cons in Hf. destruct Hf as (H1 & H2 & H3 & H4 & _). rewrite L1 by done. rewrite up_get by done. by apply typed_get.
  - intros f j Hf. unfold tag at 1. rewrite L2 by (destruct Hf; by subst). fold (tag (updated x new (updated x new (shell x new))) f j).
    destruct (updated_tags x new (updated x new (shell x new)) W' (fit_owf _ _ F1) (has_fine _ (fit_has _ _ F1)) f Hf) as [T1 _].
    destruct (updated_tags x new (shell x new) W' (fit_owf _ _ F0) (has_fine _ (fit_has _ _ F0)) f Hf) as [T2 _].
    rewrite (T1 j), (T2 j), typed_tag. destruct (tag m f j); [done|]. unfold tag. rewrite shell_meta by (destruct Hf; by subst). done.
Qed.
End writer.
