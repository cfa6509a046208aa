(** Proofs about the target writer: targets that are updated. *)
From Verif Require Import WriterModel ZSetSpec OpsSpec GatherSpec ExecSpec JsonSpec CleanSpec PipelineSpec GroupSpec ValueSpec ViewSpec WriterSpec.
From Verif Require Import JsonProofs CleanProofs ReconcileProofs ObjProofs ValueProofs GroupProofs ViewProofs ViewProofs2 WriterProofs WriterProofs2.

(** The object with the kind of the target *)
Definition typed (x : gvk) (m : jobj) : jobj := set_gvk (obj_copy m) x.
Lemma typed_get x m k : k <> "apiVersion"%string -> k <> "kind"%string -> mget (typed x m) k = mget m k.
Proof. intros. unfold typed, obj_copy, set_gvk, set_kind, set_api_version. by rewrite !mget_set_ne by congruence. Qed.
Lemma typed_meta x m f : meta (typed x m) f = meta m f.
Proof. unfold meta. cbn [nested_get]. by rewrite typed_get. Qed.
Lemma typed_tag x m f k : tag (typed x m) f k = tag m f k.
Proof. unfold tag. by rewrite typed_meta. Qed.
Lemma typed_owf x m : owf m -> owf (typed x m).
Proof. intros. by apply set_gvk_owf, copy_owf. Qed.
Lemma typed_name x m : get_name (typed x m) = get_name m.
Proof. unfold get_name. by rewrite !meta_str, typed_meta. Qed.
Lemma typed_namespace x m : get_namespace (typed x m) = get_namespace m.
Proof. unfold get_namespace. by rewrite !meta_str, typed_meta. Qed.
Lemma typed_id x m : obj_id (typed x m) = obj_id m.
Proof. unfold obj_id. by rewrite typed_name, typed_namespace. Qed.
Lemma typed_nnz x m : owf m -> nonegzero (JMap m) -> nonegzero (JMap (typed x m)).
Proof.
  intros W N. assert (Hs := owf_sorted _ W). unfold typed, obj_copy, set_gvk, set_kind, set_api_version.
  repeat (apply nnz_set; [repeat apply ksorted_set; done| |constructor]). done.
Qed.
Lemma typed_fit x m : owf m -> gvk_ok x -> get_name m <> EmptyString -> fit (x, obj_id m) (typed x m).
Proof.
  intros W G N. split; [by apply typed_owf|apply set_gvk_is|done|apply typed_id|]. apply name_has. by rewrite typed_name.
Qed.

Section writer.
Variable hash : string -> string.
Variable has_status unconditional : gvk -> bool.
Notation cluster_ok := (cluster_ok hash).
Notation wrote := (wrote hash).
Variables (x : gvk) (m : jobj).
Hypothesis Hm : target_ok x m.
Notation k := (x, obj_id m).
Notation new := (typed x m).

Lemma k_name : k.2.2 <> EmptyString.
Proof. by destruct Hm as (_ & _ & N & _). Qed.
Lemma k_proper : proper k.
Proof. intros _. apply Hm. Qed.
Lemma shell_fit : fit k (shell x new).
Proof.
  destruct Hm as (W & P & N & G & _). assert (F : meta_fine []) by done. split.
  - apply restore_owf, owf_nil.
  - apply restore_gvk.
  - done.
  - cbn [snd]. unfold shell. rewrite restore_id; [apply typed_id|apply owf_nil|done].
  - unfold shell. apply restore_has; [apply owf_nil|done|by rewrite typed_name].
Qed.
Lemma shell_meta f : f <> "name"%string -> f <> "namespace"%string -> meta (shell x new) f = None.
Proof. intros. unfold shell. rewrite restore_meta by (apply owf_nil || done). by rewrite !decide_False. Qed.
Lemma shell_nnz : nonegzero (JMap (shell x new)).
Proof. apply restore_nnz; [apply owf_nil|]. by constructor. Qed.
Lemma updated_storable obj : fit k obj -> (is_view_kind x = true -> nonegzero (JMap obj)) -> storable k (updated x new obj).
Proof.
  intros F N. destruct Hm as (W & P & Nn & G & V). assert (W' := typed_owf x m W). assert (N' : get_name new <> EmptyString) by (by rewrite typed_name). assert (I := set_gvk_is (obj_copy m) x). fold (typed x m) in I.
  assert (Fo := has_fine _ (fit_has _ _ F)). assert (Wo := fit_owf _ _ F). split; [split|split].
  - by apply updated_owf.
  - apply updated_gvk.
  - done.
  - rewrite updated_id by done. apply typed_id.
  - by apply updated_has.
  - done.
  - intros Vx. cbn in Vx. rewrite Vx in V. split; [apply V|]. apply updated_nnz; [done..| |by apply N]. apply typed_nnz; [done|apply V].
Qed.

(** What the writer makes of the object that it finds *)
Definition base (old : option jobj) : jobj := match old with Some o => o | None => shell x new end.
Lemma base_fit s : cluster_ok s -> fit k (base (stored s k)) /\ (is_view_kind x = true -> nonegzero (JMap (base (stored s k)))).
Proof.
  intros Hs. destruct (stored s k) as [old|] eqn:E; cbn [base].
  - destruct Hs as (Hh & Hs). destruct (stored_spec hash Hh s k old) as (F & _ & S1); [by split|apply k_proper|apply k_name|done|]. split; [done|]. intros V. by apply S1.
  - split; [apply shell_fit|intros _; apply shell_nnz].
Qed.
Lemma updated_holds old m' st : fit k (base old) -> (forall o, old = Some o -> get_uid o <> EmptyString /\ meta m' "uid" = meta o "uid") ->
  st = expected_status has_status x m old ->
  fit k m' -> like (updated x new (base old)) m' -> mget m' "status" = st -> holds has_status x m old m'.
Proof.
  intros F U Est F' [L1 L2] S1. destruct Hm as (W & P & Nn & G & V). assert (W' := typed_owf x m W). assert (N' : get_name new <> EmptyString) by (by rewrite typed_name). assert (I := set_gvk_is (obj_copy m) x). fold (typed x m) in I.
  assert (Fo := has_fine _ (fit_has _ _ F)). assert (Wo := fit_owf _ _ F).
  assert (T : forall f, f = "labels"%string \/ f = "annotations"%string -> tags_on_top f m old m').
  { intros f Hf. destruct (updated_tags x new (base old) W' Wo Fo f Hf) as [T _]. intros j. specialize (T j). rewrite typed_tag in T.
    unfold tag at 1. rewrite L2 by (destruct Hf; by subst). fold (tag (updated x new (base old)) f j). rewrite T. destruct (tag m f j); [done|]. destruct old as [o|]; cbn [base]; [done|].
    unfold tag. rewrite shell_meta by (destruct Hf; by subst). done. }
  split.
  - by apply fit_source.
  - intros f Hf. rewrite !not_elem_of_cons in Hf. destruct Hf as (H1 & H2 & H3 & H4 & _). rewrite L1 by done. rewrite updated_get by done. by apply typed_get.
  - by rewrite S1.
  - apply T. by left.
  - apply T. by right.
  - intros o f -> Hf. unfold server_meta in Hf. rewrite !not_elem_of_cons in Hf. destruct Hf as (H1 & H2 & H3 & H4 & H5 & _). destruct (decide (f = "uid"%string)) as [->|Nu]; [by apply U|].
    rewrite L2 by done. rewrite updated_meta; [done..|]. rewrite !not_elem_of_cons. split_and!; try done. apply not_elem_of_nil.
Qed.

Notation c_get := (c_get).
Lemma c_get_stored s : (is_view_kind x = false -> up_to_date s k) -> forall obj, fit k obj -> c_get s (get_gvk obj) (get_namespace obj) (get_name obj) = stored s k.
Proof.
  intros Hu obj F. rewrite (fit_gvk k obj) by done. assert (E := fit_id _ _ F). unfold obj_id in E. cbn in E. injection E as E1 E2. unfold WriterModel.c_get, stored. cbn [fst snd]. destruct (is_view_kind x) eqn:V.
  - by rewrite E1, E2.
  - rewrite E1, E2. apply Hu. done.
Qed.
Lemma get_uid_meta a b : meta a "uid" = meta b "uid" -> get_uid a = get_uid b.
Proof. intros E. unfold get_uid. by rewrite !meta_str, E. Qed.
Lemma get_version_meta a b : meta a "resourceVersion" = meta b "resourceVersion" -> get_version a = get_version b.
Proof. intros E. unfold get_version. by rewrite !meta_str, E. Qed.
Lemma upsert_write s t : cluster_ok s -> upsert t -> (is_view_kind x = false -> up_to_date s k) ->
  exists s' m', write_update hash has_status unconditional x s [] t new = (s', None) /\ wrote s k (updated x new (base (stored s k))) (expected_status has_status x m (stored s k)) m' s'
    /\ (forall o, stored s k = Some o -> get_uid o <> EmptyString /\ meta m' "uid" = meta o "uid").
Proof.
  intros Hs Ht Hu. destruct (base_fit s Hs) as [Fb Nb]. assert (Ms := updated_storable _ Fb Nb). set (m1 := updated x new (base (stored s k))) in *.
  assert (Hh : forall z, hash z <> EmptyString) by apply Hs.
  assert (Hm' := Hm). destruct Hm' as (W & P & Nn & G & V). assert (W' := typed_owf x m W). assert (N' : get_name new <> EmptyString) by (by rewrite typed_name). assert (I := set_gvk_is (obj_copy m) x). fold (typed x m) in I.
  assert (Fo := has_fine _ (fit_has _ _ Fb)). assert (Wo := fit_owf _ _ Fb).
  assert (Est : mget m1 "status" = mget m "status") by (unfold m1; rewrite updated_get by done; by apply typed_get).
  assert (Em1 : forall f, f ∉ ["labels"; "annotations"; "name"; "namespace"]%string -> meta m1 f = meta (base (stored s k)) f) by (intros; by apply updated_meta).
  assert (Ewu : write_update hash has_status unconditional x s [] t new = let '(s, _, e) := create_or_update hash has_status unconditional s [] (updated x new) (shell x new) in (s, ignore_missing e)) by (by destruct Ht as [->|[->|[->| ->]]]).
  rewrite Ewu. unfold create_or_update. cbn [meanwhile tail]. rewrite (c_get_stored s Hu _ shell_fit). destruct (stored s k) as [old|] eqn:E; cbn [base] in *.
  - destruct (stored_spec hash Hh s k old) as (Fold & Uold & _); [done|apply k_proper|apply k_name|done|]. fold m1.
    destruct (update_spec hash has_status unconditional Hh s k m1 old) as (s' & m' & o & H1 & H2 & H3); [done..|apply k_name|done| |].
    { destruct (is_view_kind x) eqn:Vx; [by left|]. right. left. apply get_version_meta, Em1. repeat (apply not_elem_of_cons; split; [done|]); apply not_elem_of_nil. }
    rewrite H1. exists s', m'. split_and!.
    + unfold update_error, ignore_missing. destruct (is_view_kind _ || _); [done|]. by destruct (mget m1 "status") as [[]|].
    + replace (expected_status has_status x m (Some old)) with (status_after has_status k m1 old); [done|]. unfold status_after, expected_status. cbn [fst]. rewrite Est.
      destruct (is_view_kind x); [done|]. cbn [orb]. by destruct (has_status x).
    + intros ? [= <-]. split; [done|]. apply H3. apply get_uid_meta, Em1. repeat (apply not_elem_of_cons; split; [done|]); apply not_elem_of_nil.
  - fold m1. destruct (create_spec hash has_status Hh s k m1) as (s' & m' & H1 & H2); [done..|]. rewrite H1. exists s', m'. split_and!; [done| |done].
    replace (expected_status has_status x m None) with (if is_view_kind k.1 then mget m1 "status" else if has_status k.1 then None else mget m1 "status"); [done|].
    unfold expected_status. cbn [fst]. rewrite Est. destruct (is_view_kind x); [done|]. cbn [orb]. by destruct (has_status x).
Qed.
(** A second write of the same object *)
Lemma upsert_write_again s t s' m' : cluster_ok s -> upsert t -> 
  wrote s k (updated x new (base (stored s k))) (expected_status has_status x m (stored s k)) m' s' ->
  (forall o, stored s k = Some o -> get_uid o <> EmptyString /\ meta m' "uid" = meta o "uid") ->
  (is_view_kind x = false -> up_to_date s' k) -> (is_view_kind x = false -> has_status x = true -> (exists st, mget m "status" = Some (JMap st)) -> stored s k <> None) ->
  exists s'', write_update hash has_status unconditional x s' [] t new = (s'', None) /\ same_stored s' s''.
Proof.
  intros Hs Ht Hw HU Hu Hst. destruct (base_fit s Hs) as [Fb Nb]. set (m1 := updated x new (base (stored s k))) in *. assert (Hs' := wr_ok _ _ _ _ _ _ _ Hw).
  assert (Hh : forall z, hash z <> EmptyString) by apply Hs.
  assert (Hm' := Hm). destruct Hm' as (W & P & Nn & G & V). assert (W' := typed_owf x m W). assert (N' : get_name new <> EmptyString) by (by rewrite typed_name). assert (I := set_gvk_is (obj_copy m) x). fold (typed x m) in I.
  assert (Fo := has_fine _ (fit_has _ _ Fb)). assert (Wo := fit_owf _ _ Fb).
  assert (E' := wr_stored _ _ _ _ _ _ _ Hw). assert (F' := wr_fit _ _ _ _ _ _ _ Hw). destruct (wr_like _ _ _ _ _ _ _ Hw) as [L1 L2].
  destruct (base_fit s' Hs') as [Fb' Nb']. rewrite E' in Fb', Nb'. cbn [base] in *. assert (Ms := updated_storable _ Fb' Nb'). set (m2 := updated x new m') in *.
  assert (M1 := has_fine _ (fit_has _ _ F')). assert (W1 := fit_owf _ _ F').
  assert (Mf : forall f, meta m2 f = meta m' f).
  { unfold m2. apply updated_meta_fix; [done..|apply F'| | | |].
    - rewrite L2 by done. by apply updated_names.
    - rewrite L2 by done. by apply updated_names.
    - eapply covers_meta; [symmetry; by apply L2|]. apply updated_tags; [done..|by left].
    - eapply covers_meta; [symmetry; by apply L2|]. apply updated_tags; [done..|by right]. }
  assert (Gf : forall j, j <> "metadata"%string -> j <> "status"%string -> mget m2 j = mget m' j).
  { intros j J1 J2. unfold m2. rewrite updated_get by done. rewrite L1 by done. unfold m1. by rewrite updated_get. }
  assert (Est : mget m2 "status" = mget m "status") by (unfold m2; rewrite updated_get by done; by apply typed_get).
  assert (Sm : mget m' "status" = expected_status has_status x m (stored s k)) by apply Hw.
  assert (Ewu : write_update hash has_status unconditional x s' [] t new = let '(s, _, e) := create_or_update hash has_status unconditional s' [] (updated x new) (shell x new) in (s, ignore_missing e)) by (by destruct Ht as [->|[->|[->| ->]]]).
  rewrite Ewu. unfold create_or_update. cbn [meanwhile tail]. rewrite (c_get_stored s' Hu _ shell_fit), E'. fold m2.
  destruct (update_same hash has_status unconditional Hh s' k m2 m') as (s'' & o & H1 & H2 & H3); [done..|apply k_name|done| | | | |].
  - destruct (is_view_kind x) eqn:Vx; [by left|]. right. left. apply get_version_meta, Mf.
  - split; intros; [by apply Gf|by apply Mf].
  - unfold status_after. cbn [fst]. rewrite Est, Sm. unfold expected_status. destruct (is_view_kind x) eqn:Vx; [done|]. cbn [orb]. destruct (has_status x) eqn:Hx; [|done]. cbn [negb].
    destruct (stored s k) as [old|] eqn:E.
    + by destruct (mget m "status") as [[]|].
    + destruct (mget m "status") as [[| | | | | |st]|] eqn:Em; try done. exfalso. apply Hst; eauto.
  - intros Vx. cbn in Vx. apply obj_ext; [apply Ms|done|apply Ms|apply F'| |apply Mf]. intros j J. destruct (decide (j = "status"%string)) as [->|J2]; [|by apply Gf].
    rewrite Est, Sm. unfold expected_status. by rewrite Vx.
  - rewrite H1. exists s''. split; [|done]. unfold update_error, ignore_missing. destruct (is_view_kind _ || _); [done|]. by destruct (mget m2 "status") as [[]|].
Qed.
End writer.
