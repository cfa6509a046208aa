(** Properties C33 and C34 when others write to the cluster between the calls of a writer. *)
From Verif Require Import WriterModel ZSetSpec OpsSpec GatherSpec ExecSpec JsonSpec CleanSpec PipelineSpec GroupSpec ValueSpec ViewSpec WriterSpec.
From Verif Require Import WriterProofs WriterProofs2 WriterProofs3 PropsWriter.

Definition with_cached (s : cluster) (c : gmap (gvk * (string * string)) jobj) : cluster := Cluster (cl_views s) (cl_live s) c (cl_next s).
Lemma with_cached_self s : with_cached s (cl_cached s) = s. Proof. by destruct s. Qed.
Lemma with_cached_twice s c c' : with_cached (with_cached s c) c' = with_cached s c'. Proof. done. Qed.
Lemma stored_cached s c k : stored (with_cached s c) k = stored s k. Proof. done. Qed.
Lemma cluster_ok_cached hash s c : cluster_ok hash s -> cluster_ok hash (with_cached s c). Proof. done. Qed.
Lemma frame_cached s s' c c' k : frame s s' k -> frame (with_cached s c) (with_cached s' c') k. Proof. done. Qed.

Section race.
Context (hash : string -> string) (has_status unconditional : gvk -> bool).
Lemma commit_cached s c k old new : commit (with_cached s c) k old new = (with_cached (commit s k old new).1 c, (commit s k old new).2).
Proof. unfold commit. by destruct (decide _). Qed.
Lemma create_cached s c m : c_create hash has_status (with_cached s c) m = (with_cached (c_create hash has_status s m).1 c, (c_create hash has_status s m).2).
Proof. unfold c_create. cbn [cl_views cl_live with_cached]. destruct (is_view_kind _); [by destruct (vc_add _ _ _) as [[? ?] ?]|]. by destruct (cl_live s !! _). Qed.
Lemma update_cached s c m : c_update hash has_status unconditional (with_cached s c) m =
  let '(s', m', e) := c_update hash has_status unconditional s m in (with_cached s' c, m', e).
Proof.
  unfold c_update. cbn [cl_views cl_live with_cached]. destruct (is_view_kind _); [by destruct (cl_update _ _ _) as [[? ?] ?]|].
  destruct (cl_live s !! _); [|done]. destruct (admits _ _ _); [done|]. rewrite commit_cached. by destruct (commit _ _ _ _).
Qed.
Lemma status_cached s c m : c_update_status has_status unconditional (with_cached s c) m = (with_cached (c_update_status has_status unconditional s m).1 c, (c_update_status has_status unconditional s m).2).
Proof.
  unfold c_update_status. cbn [cl_views cl_live with_cached]. destruct (cl_live s !! _); [|done]. destruct (has_status _); [|done]. destruct (admits _ _ _); [done|]. by rewrite commit_cached.
Qed.
Lemma both_cached s c m : update_both hash has_status unconditional (with_cached s c) [] m =
  let '(s', w, m', e) := update_both hash has_status unconditional s [] m in (with_cached s' c, w, m', e).
Proof.
  unfold update_both. cbn [meanwhile tail]. rewrite update_cached. destruct (c_update _ _ _ s m) as [[s' m'] [e|]]; [done|].
  destruct (mget m "status") as [[]|]; try done. destruct (is_view_kind _); [done|]. rewrite status_cached. by destruct (c_update_status _ _ s' _).
Qed.
(** What the update sees is the cache at the time of the read and the objects at the time
    of the write. *)
Lemma race_update f1 f2 s x new m : is_view_kind (get_gvk m) = false ->
  let s1 := f1 s in let s2 := f2 s1 in
  create_or_update hash has_status unconditional s [f1; f2] (updated x new) m =
    let '(s', w, e) := create_or_update hash has_status unconditional (with_cached s2 (cl_cached s1)) [] (updated x new) m in (with_cached s' (cl_cached s2), w, e).
Proof.
  intros V s1 s2. unfold create_or_update. cbn [meanwhile tail]. fold s1. fold s2. unfold c_get. rewrite V. cbn [cl_cached with_cached].
  set (c1 := cl_cached s1).
  destruct (c1 !! _) as [o|].
  - change (update_both hash has_status unconditional s1 [f2] (updated x new o)) with
      (update_both hash has_status unconditional s2 [] (updated x new o)).
    rewrite (both_cached s2 c1). rewrite <- (with_cached_self s2) at 1. rewrite (both_cached s2 (cl_cached s2)).
    by destruct (update_both _ _ _ s2 [] _) as [[[s' w] m'] e].
  - rewrite <- (with_cached_self s2) at 1. rewrite !create_cached. destruct (c_create hash has_status s2 _) as [s' [e|]] eqn:Ec; cbn [fst snd]; [|by rewrite with_cached_twice].
    rewrite !both_cached. by destruct (update_both _ _ _ s' [] _) as [[[s'' w] m'] e'].
Qed.
Lemma race_write f1 f2 s x d orig : is_view_kind x = false -> target_ok x (d_obj d) -> upsert (d_type d) ->
  let s1 := f1 s in let s2 := f2 s1 in
  target_write hash has_status unconditional Updater x s [f1; f2] d orig =
    let '(s', e) := target_write hash has_status unconditional Updater x (with_cached s2 (cl_cached s1)) [] d orig in (with_cached s' (cl_cached s2), e).
Proof.
  intros V Hm Ht s1 s2. cbn [target_write]. assert (E : get_gvk (shell x (set_gvk (obj_copy (d_obj d)) x)) = x).
  { apply (fit_gvk (x, obj_id (d_obj d))). by apply shell_fit. }
  unfold write_update. destruct Ht as [->|[->|[->| ->]]]; rewrite race_update by (by rewrite E); fold s1; fold s2; by destruct (create_or_update _ _ _ (with_cached s2 _) [] _ _) as [[? ?] ?].
Qed.
End race.

(** Others act before the read of the writer ([f1]) and between its read and its write
    ([f2]); the kind is one of Kubernetes.  If they leave the object as the cache has it, the
    write is as without them. *)
Theorem C33_undisturbed_partial : forall hash has_status unconditional x s f1 f2 d orig, let s1 := f1 s in let s2 := f2 s1 in
  cluster_ok hash s2 -> target_ok x (d_obj d) -> upsert (d_type d) -> is_view_kind x = false ->
  let k := (x, obj_id (d_obj d)) in cl_cached s1 !! k = stored s2 k ->
  exists s' m', target_write hash has_status unconditional Updater x s [f1; f2] d orig = (s', None)
    /\ cluster_ok hash s' /\ stored s' k = Some m' /\ holds has_status x (d_obj d) (stored s2 k) m' /\ frame s2 s' k.
Proof.
  intros hash has_status unconditional x s f1 f2 d orig s1 s2 Hs Hm Ht V k E. rewrite race_write by done. fold s1 s2.
  destruct (C33_upsert_partial hash has_status unconditional x (with_cached s2 (cl_cached s1)) d orig) as (s' & m' & Ew & H1 & H2 & H3 & H4); try done.
  { intros _. unfold up_to_date. cbn [cl_cached cl_live with_cached]. fold k. rewrite E. unfold stored. cbn [fst k]. by rewrite V. }
  rewrite Ew. by exists (with_cached s' (cl_cached s2)), m'.
Qed.
Print Assumptions C33_undisturbed_partial.
(** If somebody changed the object in between, the write fails, so that it can be repeated,
    and their change stays. *)
Theorem C33_overtaken : forall hash has_status unconditional x s f1 f2 d orig o old, let s1 := f1 s in let s2 := f2 s1 in
  cluster_ok hash s2 -> target_ok x (d_obj d) -> upsert (d_type d) -> is_view_kind x = false ->
  let k := (x, obj_id (d_obj d)) in cl_cached s1 !! k = Some o -> earlier k o -> stored s2 k = Some old -> get_version o <> get_version old ->
  target_write hash has_status unconditional Updater x s [f1; f2] d orig = (s2, Some EConflict).
Proof.
  intros hash has_status unconditional x s f1 f2 d orig o old s1 s2 Hs Hm Ht V k C O E D. rewrite race_write by done. fold s1 s2.
  rewrite (C33_conflict hash has_status unconditional x (with_cached s2 (cl_cached s1)) d orig o old) by done. by rewrite with_cached_twice, with_cached_self.
Qed.
Print Assumptions C33_overtaken.
(** If somebody created the object in between, it has the fields of the delta afterwards;
    other labels and annotations are lost.  Kinds that must be updated with a version
    refuse the write. *)
Theorem C33_created_meanwhile_partial : forall hash has_status unconditional x s f1 f2 d orig old, let s1 := f1 s in let s2 := f2 s1 in
  cluster_ok hash s2 -> target_ok x (d_obj d) -> upsert (d_type d) -> is_view_kind x = false ->
  let k := (x, obj_id (d_obj d)) in cl_cached s1 !! k = None -> stored s2 k = Some old ->
  (unconditional x = false -> target_write hash has_status unconditional Updater x s [f1; f2] d orig = (s2, Some EInvalid)) /\
  (unconditional x = true -> exists s' m', target_write hash has_status unconditional Updater x s [f1; f2] d orig = (s', None)
    /\ cluster_ok hash s' /\ stored s' k = Some m' /\ frame s2 s' k /\ source_id m' = k
    /\ (forall f, f ∉ ["apiVersion"; "kind"; "metadata"; "status"]%string -> mget m' f = mget (d_obj d) f)
    /\ (forall f j, f = "labels"%string \/ f = "annotations"%string -> tag m' f j = tag (d_obj d) f j)).
Proof.
  intros hash has_status unconditional x s f1 f2 d orig old s1 s2 Hs Hm Ht V k C E. rewrite race_write by done. fold s1 s2. split; intros U.
  - rewrite (C33_late_cache_strict hash has_status unconditional x (with_cached s2 (cl_cached s1)) d orig old) by done. by rewrite with_cached_twice, with_cached_self.
  - destruct (C33_late_cache_partial hash has_status unconditional x (with_cached s2 (cl_cached s1)) d orig old) as (s' & m' & Ew & H1 & H2 & H3 & H4 & H5 & H6 & H7); try done.
    rewrite Ew. by exists (with_cached s' (cl_cached s2)), m'.
Qed.
Print Assumptions C33_created_meanwhile_partial.
(** Refuted: if somebody deleted the object in between, the write reports success although
    there is no object. *)
Theorem C33_deleted_meanwhile_refuted : forall hash has_status unconditional x s f1 f2 d orig o, let s1 := f1 s in let s2 := f2 s1 in
  cluster_ok hash s2 -> target_ok x (d_obj d) -> upsert (d_type d) -> is_view_kind x = false ->
  let k := (x, obj_id (d_obj d)) in cl_cached s1 !! k = Some o -> earlier k o -> stored s2 k = None ->
  target_write hash has_status unconditional Updater x s [f1; f2] d orig = (s2, None).
Proof.
  intros hash has_status unconditional x s f1 f2 d orig o s1 s2 Hs Hm Ht V k C O E. rewrite race_write by done. fold s1 s2.
  rewrite (C33_gone_refuted hash has_status unconditional x (with_cached s2 (cl_cached s1)) d orig o) by done. by rewrite with_cached_twice, with_cached_self.
Qed.
Print Assumptions C33_deleted_meanwhile_refuted.

(** The hypotheses hold of a writer that reads [one_a] while somebody makes [two_a] of it,
    or deletes the object, or creates it. *)
Definition by_other (m : jobj) (s : cluster) : cluster := put deploy s m.
Lemma by_other_one : by_other item1 nothing = one_a. Proof. reflexivity. Qed.
Lemma by_other_two : by_other item2 one_a = two_a. Proof. reflexivity. Qed.
Lemma two_ok : cluster_ok h0 two_a.
Proof. apply (put_ok deploy one_a item2); [done|apply (put_ok deploy nothing item1); [done|apply nothing_ok|by apply item_ok; repeat (constructor; try done)|done]|by apply item_ok; repeat (constructor; try done)|done]. Qed.
Definition over_a : delta := Delta Added (item [] [("n"%string, JInt 3)] []).
Example ex_C33_overtaken :
  (exists o old, let s1 := by_other item1 nothing in let s2 := by_other item2 s1 in
     cluster_ok h0 s2 /\ target_ok deploy (d_obj over_a) /\ cl_cached s1 !! k_a = Some o /\ earlier k_a o /\ stored s2 k_a = Some old /\ get_version o <> get_version old)
  /\ target_write h0 yes yes Updater deploy nothing [by_other item1; by_other item2] over_a None = (two_a, Some EConflict)
  /\ look (target_write h0 yes yes Updater deploy nothing [id; by_other item2] over_a None).1 deploy ["metadata"; "labels"; "tier"]%string = None
  /\ look (target_write h0 yes yes Updater deploy one_a [id; id] over_a None).1 deploy ["metadata"; "labels"; "app"]%string = Some (JStr "x").
Proof.
  assert (Ho : target_ok deploy (d_obj over_a)) by (by apply item_ok; repeat (constructor; try done)).
  assert (G : exists o old, let s1 := by_other item1 nothing in let s2 := by_other item2 s1 in
     cluster_ok h0 s2 /\ target_ok deploy (d_obj over_a) /\ cl_cached s1 !! k_a = Some o /\ earlier k_a o /\ stored s2 k_a = Some old /\ get_version o <> get_version old).
  { cbn zeta. rewrite by_other_one, by_other_two. assert (E1 := one_version). assert (E2 := two_version).
    apply fmap_Some in E1 as (o & Eo & E1). apply fmap_Some in E2 as (old & Ew & E2). exists o, old.
    rewrite <- live_stored in Eo by done. destruct (one_ok _ _ Eo) as (_ & N1 & N2 & N3 & N4 & N5).
    split_and!; [apply two_ok..|done|exact Eo|by split_and!|done|congruence]. }
  split; [exact G|]. split_and!; [|vm_compute; reflexivity..].
  destruct G as (o & old & Hs & _ & H1 & H2 & H3 & H4).
  assert (R := C33_overtaken h0 yes yes deploy nothing (by_other item1) (by_other item2) over_a None o old Hs Ho (or_introl eq_refl) eq_refl H1 H2 H3 H4).
  rewrite by_other_one, by_other_two in R. exact R.
Qed.

(** Refuted for views, which have no versions: what somebody wrote between the read and the
    write is lost. *)
Theorem C33_view_race_refuted : let s := put own nothing item1 in
  let other s := put own s (item [("owner"%string, JStr "me")] [("n"%string, JInt 1)] []) in
  look (other s) own ["metadata"; "labels"; "owner"]%string = Some (JStr "me")
  /\ (target_write h0 yes yes Updater own s [id; other] over_a None).2 = None
  /\ look (target_write h0 yes yes Updater own s [id; other] over_a None).1 own ["metadata"; "labels"; "owner"]%string = None
  /\ look (target_write h0 yes yes Updater own s [other; id] over_a None).1 own ["metadata"; "labels"; "owner"]%string = Some (JStr "me").
Proof. cbn zeta. split_and!; vm_compute; reflexivity. Qed.
Print Assumptions C33_view_race_refuted.

(** Refuted for patches: a field that the delta does not mention, and that somebody sets
    between the read and the write, gets its former value back.  The first attempt fails with
    a conflict; the next one writes the same object with the current version. *)
Theorem C34_race_refuted : forall x, x = own \/ x = deploy ->
  let s := put x nothing item1 in let other s := put x s (mset item1 "spec" (JMap [("n"%string, JInt 9)])) in
  let out := target_write h0 yes yes Patcher x s [id; other] (Delta Added part) None in
  untouched (JMap part) [Key "spec"; Key "n"]%string
  /\ look (other s) x ["spec"%string; "n"%string] = Some (JInt 9) /\ out.2 = None /\ look out.1 x ["spec"%string; "n"%string] = Some (JInt 1).
Proof. intros x [->| ->]; cbn zeta; (split; [done|]); split_and!; vm_compute; reflexivity. Qed.
Print Assumptions C34_race_refuted.
