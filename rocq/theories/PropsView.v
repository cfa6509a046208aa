(** Properties C29 (storage of views), C30 (event streams), C31 (overlapping
    calls), C32 (watches) and C50 (sub-resources). *)
From Verif Require Import ViewModel ZSetSpec OpsSpec GatherSpec ExecSpec JsonSpec CleanSpec PipelineSpec GroupSpec ValueSpec ViewSpec.
From Verif Require Import JsonProofs CleanProofs ReconcileProofs ObjProofs ValueProofs GroupProofs ViewProofs ViewProofs2 ViewProofs3.

(** Data for the examples. *)
Definition id_hash (s : string) : string := s.
Definition any_order (s : store) : list jobj := map snd (map_to_list s).
Lemma any_order_all : lists_all any_order.
Proof. intros s. unfold any_order. done. Qed.
Definition view (kind ns name phase : string) : jobj :=
  [("apiVersion"%string, JStr "op.view.dcontroller.io/v1alpha1"); ("kind"%string, JStr kind);
   ("metadata"%string, JMap [("name"%string, JStr name); ("namespace"%string, JStr ns); ("uid"%string, JStr "1")]);
   ("status"%string, JMap [("phase"%string, JStr phase)])].
Definition v_gvk : gvk := view_gvk "op" "V".
Definition every : selection := Selection "" None None.
Definition in_phase (p : string) : selection := Selection "" None (Some (fun fs => bool_decide (("status.phase"%string, p) ∈ fs))).
Definition in_ns (ns : string) : selection := Selection ns None None.
Lemma copy_get m k : k <> "apiVersion"%string -> k <> "kind"%string -> mget (obj_copy m) k = mget m k.
Proof. intros. unfold obj_copy, set_gvk, set_kind, set_api_version. by rewrite !mget_set_ne by congruence. Qed.

(** ** C29 *)

(** After any history of client calls on an empty cache the results, Get and List
    are those of a plain map from kind and name to object. [op_ok] asks for
    well-formed objects without negative zeros, names without slashes, kinds
    declared by an operator (not views of native kinds), and patches that leave
    kind and name alone. *)
Theorem C29_map_partial : forall hash lister ops, lists_all lister -> Forall op_ok ops ->
  let '(c, _, results) := cache_run hash lister ∅ ops in
  let '(w, results') := ideal_run hash ∅ ops in
  results = results'
  /\ (forall x ns name, is_view_kind x = true -> plain (ns, name) -> vc_get c x ns name = w !! (x, (ns, name)))
  /\ (forall x s m, is_object_kind x = true -> In m (vc_list lister c (list_gvk x) s) <-> get_gvk m = x /\ w !! source_id m = Some m /\ selects s m = true)
  /\ (forall x s, NoDup (map obj_id (vc_list lister c x s))).
Proof.
  intros hash lister ops Hl Ho. assert (R := cache_run_sim hash lister Hl ops ∅ ∅ (sim_empty hash) Ho).
  destruct (cache_run hash lister ∅ ops) as [[c es] rs]. destruct (ideal_run hash ∅ ops) as [w rs']. destruct R as (R1 & -> & _). split_and!; [done| | |].
  - intros x ns name V Hp. by eapply vc_get_sim.
  - intros x s m V. rewrite (vc_list_in hash lister Hl _ _ _ _ _ R1), object_list_gvk; [naive_solver|]. unfold is_object_kind in V. apply andb_true_iff in V as [_ V]. by destruct (has_suffix _ _).
  - intros x s. eapply vc_list_ids; done.
Qed.
Print Assumptions C29_map_partial.

(** What is stored is what was written, except that an object without a UID gets
    one and that the fields for the kind get their usual form. *)
Theorem C29_stored_content : forall hash m,
  get_gvk (stamp hash m) = get_gvk m /\ obj_id (stamp hash m) = obj_id m
  /\ (forall k, k <> "apiVersion"%string -> k <> "kind"%string -> k <> "metadata"%string -> mget (stamp hash m) k = mget m k)
  /\ (forall x, mget m "metadata" = Some (JMap x) ->
        exists y, mget (stamp hash m) "metadata" = Some (JMap y) /\ forall k, k <> "uid"%string \/ get_uid m <> ""%string -> mget y k = mget x k).
Proof.
  intros hash m. split_and!; [apply stamp_gvk|apply stamp_id| |].
  - intros k N1 N2 N3. unfold stamp. rewrite with_uid_get by done. by apply copy_get.
  - intros x E. unfold stamp. assert (E' : mget (obj_copy m) "metadata" = Some (JMap x)) by (by rewrite copy_get).
    destruct (decide (get_uid m = ""%string)) as [U|U].
    + destruct (with_uid_meta hash _ _ E') as (y & Ey & Hy). exists y. split; [done|]. intros k [Hk|Hk]; [by apply Hy|done].
    + exists x. split; [|done]. unfold with_uid. assert (get_uid (obj_copy m) = get_uid m) as ->.
      { unfold get_uid, nested_str. cbn [nested_get]. by rewrite E, E'. }
      rewrite (proj2 (String.eqb_neq _ _)) by done. by rewrite orb_true_r.
Qed.
Print Assumptions C29_stored_content.

(** Refuted for views of native kinds: an object that Get returns cannot be
    updated, because the client rebuilds the kind from the operator. *)
Definition native_view : jobj :=
  [("apiVersion"%string, JStr "apps.v1.op.view.dcontroller.io/v1alpha1"); ("kind"%string, JStr "Deployment");
   ("metadata"%string, JMap [("name"%string, JStr "a"); ("uid"%string, JStr "1")])].
Theorem C29_native_view_refuted :
  let '(c, _, results) := cache_run id_hash any_order ∅ [VCreate native_view; VUpdate native_view; VPatch native_view []; VSubUpdate "status" native_view] in
  results = [VOk; VNotFound; VNotFound; VNotFound] /\ vc_get c (get_gvk native_view) "" "a" = Some native_view.
Proof. vm_compute. split; reflexivity. Qed.
Print Assumptions C29_native_view_refuted.

(** Refuted for names with a slash (which Kubernetes does not allow, but which
    views can have): two objects share a place. *)
Theorem C29_slash_refuted :
  let '(c, _, results) := cache_run id_hash any_order ∅ [VCreate (view "V" "" "a/b" "x"); VCreate (view "V" "a" "b" "y")] in
  results = [VOk; VOk] /\ vc_get c v_gvk "" "a/b" = Some (view "V" "a" "b" "y").
Proof. vm_compute. split; reflexivity. Qed.
Print Assumptions C29_slash_refuted.

(** Refuted for a patch that renames the object: there are two afterwards. *)
Theorem C29_rename_refuted :
  let '(c, _, results) := cache_run id_hash any_order ∅
    [VCreate (view "V" "" "a" "x"); VPatch (view "V" "" "a" "x") [("metadata"%string, JMap [("name"%string, JStr "b")])]] in
  results = [VOk; VOk] /\ is_Some (vc_get c v_gvk "" "a") /\ is_Some (vc_get c v_gvk "" "b").
Proof. vm_compute. split_and!; [reflexivity|by eexists..]. Qed.
Print Assumptions C29_rename_refuted.

(** Refuted for negative zero: the update is lost. *)
Definition weight (f : spec_float) : jobj := view "V" "" "a" "x" ++ [("weight"%string, JFloat f)].
Theorem C29_negative_zero_refuted :
  let '(c, _, results) := cache_run id_hash any_order ∅ [VCreate (weight (S754_zero false)); VUpdate (weight (S754_zero true))] in
  results = [VOk; VOk] /\ vc_get c v_gvk "" "a" = Some (weight (S754_zero false)).
Proof. vm_compute. split; reflexivity. Qed.
Print Assumptions C29_negative_zero_refuted.

(** Create replaces an object that exists; there is no AlreadyExists. *)
Theorem C29_create_again : forall hash c m, is_view_kind (get_gvk m) = true ->
  let '(c', _, r) := vc_add hash c m in r = VOk /\ vc_get c' (get_gvk m) (get_namespace m) (get_name m) = Some (obj_copy (stamp hash m)).
Proof.
  intros hash c m V. unfold vc_add. rewrite V. split; [done|]. unfold vc_get. rewrite V. rewrite cache_put, decide_True by done.
  assert (E : skey (get_namespace m) (get_name m) = store_key (stamp hash m)).
  { by rewrite store_key_skey, stamp_id. }
  by rewrite E, lookup_insert.
Qed.
Print Assumptions C29_create_again.

Lemma own_v : own_kind v_gvk.
Proof. exists "op"%string, "V"%string. split; [|done]. by repeat split. Qed.
Lemma view_writable ns name phase : plain (ns, name) -> writable (view "V" ns name phase).
Proof.
  intros H. split_and!; [|repeat constructor|done]. repeat constructor; simpl; try done.
Qed.
Example ex_C29 : let ops := [VCreate (view "V" "n" "a" "x"); VCreate (view "V" "n" "b" "y"); VUpdate (view "V" "n" "a" "z"); VPatch (view "V" "n" "b" "") [("spec"%string, JInt 1)];
                             VDelete (view "V" "n" "c" "")] in
  Forall op_ok ops /\ (cache_run id_hash any_order ∅ ops).2 = [VOk; VOk; VOk; VOk; VNotFound]
  /\ vc_get (cache_run id_hash any_order ∅ ops).1.1 v_gvk "n" "a" = Some (view "V" "n" "a" "z")
  /\ map get_name (vc_list any_order (cache_run id_hash any_order ∅ ops).1.1 (list_gvk v_gvk) (in_phase "z")) = ["a"%string].
Proof.
  intros ops. split_and!; [|vm_compute; reflexivity..]. repeat constructor; try apply own_v; try done.
Qed.

(** ** C30 *)

(** A handler registered at any point of any history, and still registered, has
    got events that amount to the objects of its kind. *)
Theorem C30_replay_partial : forall hash lister before after x, lists_all lister -> Forall act_ok (before ++ after) -> is_view_kind x = true ->
  let s := vact_run hash lister vsys0 before in
  let i := vs_next s in ~ In (Leave i) after ->
  let s' := vact_run hash lister s (Listen x :: after) in
  forall ns name, plain (ns, name) -> replayed (vs_log s' i) (ns, name) = vc_get (vs_cache s') x ns name.
Proof.
  intros hash lister before after x Hl Hok V s i N s' ns name Hp. destruct (listen_replay hash lister Hl before after x Hok V N) as (w & H & R). fold s i s' in H, R.
  rewrite R. symmetry. by eapply vc_get_sim.
Qed.
Print Assumptions C30_replay_partial.

(** It gets the objects that exist first, each of them once, and then the events
    of the writes in their order. *)
Theorem C30_order_partial : forall hash lister before after x, lists_all lister -> Forall act_ok (before ++ after) -> is_view_kind x = true ->
  let s := vact_run hash lister vsys0 before in
  let i := vs_next s in ~ In (Leave i) after ->
  exists initial, vs_log (vact_run hash lister s (Listen x :: after)) i
    = map WCreate initial ++ events_on x (cache_run hash lister (vs_cache s) (writes after)).1.2
  /\ NoDup (map obj_id initial)
  /\ forall m, In m initial <-> get_gvk m = x /\ plain (obj_id m) /\ vc_get (vs_cache s) x (get_namespace m) (get_name m) = Some m.
Proof.
  intros hash lister before after x Hl Hok V s i N. destruct (listen_log hash lister Hl before after x Hok V N) as [E _]. fold s i in E. exists (lister (cache_of (vs_cache s) x)). split; [done|].
  apply Forall_app in Hok as [H1 H2]. destruct (run_sim hash lister Hl before H1) as (w & H & _). fold s in H. split.
  - assert (NK := lister_keys hash lister Hl _ _ x H). revert NK. generalize (lister (cache_of (vs_cache s) x)). intros l NK. induction l as [|m l IH]; [constructor|].
    cbn [map] in *. apply NoDup_cons in NK as [N1 N2]. constructor; [|by apply IH]. intros Em. apply N1. apply elem_of_list_In, in_map_iff in Em as (m' & Em & Hin).
    apply elem_of_list_In, in_map_iff. exists m'. split; [|done]. by rewrite !store_key_skey, Em.
  - intros m. rewrite (lister_in lister Hl). split.
    + intros (k & Hk). destruct (sim_c _ _ _ H _ _ _ Hk) as [Ho Hw]. split_and!; [by destruct Ho|by destruct Ho|].
      rewrite (vc_get_sim hash _ _ _ _ _ H V (so_plain _ _ _ _ Ho)). rewrite <- Hw. unfold source_id. by rewrite (so_gvk _ _ _ _ Ho).
    + intros (Eg & Hp & Hg). rewrite (vc_get_sim hash _ _ _ _ _ H V Hp) in Hg. destruct (sim_w _ _ _ H _ _ _ Hg) as [Hk _]. eauto.
Qed.
Print Assumptions C30_order_partial.

(** A handler that was removed gets nothing more. *)
Theorem C30_removed : forall hash lister s i acts, (i < vs_next s)%nat -> vs_log (vact_run hash lister s (Leave i :: acts)) i = vs_log s i.
Proof.
  intros hash lister s i acts Hi. assert (G : forall s, (i < vs_next s)%nat -> vs_handlers s !! i = None -> vs_log (vact_run hash lister s acts) i = vs_log s i).
  { clear. induction acts as [|a acts IH]; intros s Hi E; [done|]. unfold vact_run in *. cbn [foldl]. destruct a as [o|y|j]; cbn [vact_step].
    - destruct (vstep hash lister (vs_cache s) o) as [[c es] r]. rewrite IH; [|done..]. cbn. unfold deliver. by rewrite E.
    - destruct (is_view_kind y); [|by apply IH]. rewrite IH; cbn; [by rewrite decide_False by lia|lia|by rewrite lookup_insert_ne by lia].
    - rewrite IH; cbn; [done|done|]. by apply lookup_delete_None; right. }
  unfold vact_run. cbn [foldl vact_step]. unfold vact_run in G. rewrite G; [done|done|]. cbn. apply lookup_delete.
Qed.
Print Assumptions C30_removed.

Example ex_C30 : let before := [Do (VCreate (view "V" "n" "a" "x")); Do (VCreate (view "W" "n" "a" "x"))] in
  let after := [Do (VUpdate (view "V" "n" "a" "z")); Do (VCreate (view "V" "n" "b" "x")); Do (VDelete (view "V" "n" "a" ""))] in
  Forall act_ok (before ++ after) /\ ~ In (Leave 0) after
  /\ vs_log (vact_run id_hash any_order vsys0 (before ++ Listen v_gvk :: after)) 0
     = [WCreate (view "V" "n" "a" "x"); WUpdate (Some (view "V" "n" "a" "x")) (Some (view "V" "n" "a" "z")); WCreate (view "V" "n" "b" "x"); WDelete (view "V" "n" "a" "z")].
Proof.
  intros before after. split_and!; [|intros H; simpl in H; intuition discriminate|vm_compute; reflexivity]. repeat constructor; try apply own_v; try done.
Qed.

(** ** C31 *)

(** Whatever the interleaving of calls and registration, when all calls have
    returned the handler has got every object in the cache, with its final
    content. *)
Theorem C31_never_misses_partial : forall hash lister s l r, lists_all lister -> store_ok s -> Forall choice_ok l ->
  rrun hash lister (race0 s) l = Some r -> finished r ->
  forall k m, r_cache r !! k = Some m -> exists e, In e (r_log r) /\ brings e m.
Proof. intros. eapply race_complete; done. Qed.
Print Assumptions C31_never_misses_partial.

(** If calls begin after the registration and calls on the same object do not
    overlap, the handler's events amount to the cache; calls on different
    objects overlap as they like. *)
Theorem C31_orderly_partial : forall hash lister s l r, lists_all lister -> store_ok s -> Forall choice_ok l -> orderly_run hash lister (race0 s) l ->
  rrun hash lister (race0 s) l = Some r -> finished r ->
  forall ns name, plain (ns, name) -> replayed (r_log r) (ns, name) = r_cache r !! skey ns name.
Proof. intros. eapply (race_orderly hash lister); done. Qed.
Print Assumptions C31_orderly_partial.

(** Refuted in general.  An object written during the registration is added
    twice. *)
Theorem C31_duplicate_add_refuted : exists l r, Forall choice_ok l /\ rrun id_hash any_order (race0 ∅) l = Some r /\ finished r
  /\ r_log r = [WCreate (view "V" "n" "a" "x"); WCreate (view "V" "n" "a" "x")].
Proof.
  eexists [RAdd (view "V" "n" "a" "x"); RRegister; RTick 0; RList; RReplay], _.
  split_and!; [|vm_compute; reflexivity|vm_compute; split; reflexivity|vm_compute; reflexivity]. repeat constructor; try apply view_writable; done.
Qed.
Print Assumptions C31_duplicate_add_refuted.

(** An object deleted during the registration is added after its deletion. *)
Theorem C31_add_after_delete_refuted : exists s l r, store_ok s /\ Forall choice_ok l /\ rrun id_hash any_order (race0 s) l = Some r /\ finished r
  /\ r_cache r !! "n/a"%string = None /\ r_log r = [WDelete (view "V" "n" "a" "x"); WCreate (view "V" "n" "a" "x")].
Proof.
  eexists {["n/a"%string := view "V" "n" "a" "x"]}, [RRegister; RList; RFind (view "V" "n" "a" ""); RTick 0; RTick 0; RReplay], _.
  split; [intros k m [<- <-]%lookup_singleton_Some; vm_compute; split_and!; done|]. split; [repeat apply Forall_cons_2; try done; by apply Forall_nil_2|].
  split; [vm_compute; reflexivity|]. split; [vm_compute; split; reflexivity|]. split; vm_compute; reflexivity.
Qed.
Print Assumptions C31_add_after_delete_refuted.

(** Two writes to the same object are reported in the other order: the last event
    has the old content. *)
Theorem C31_stale_refuted : exists l r, Forall choice_ok l /\ rrun id_hash any_order (race0 ∅) l = Some r /\ finished r
  /\ r_cache r !! "n/a"%string = Some (view "V" "n" "a" "new")
  /\ replayed (r_log r) ("n", "a")%string = Some (view "V" "n" "a" "old").
Proof.
  eexists [RRegister; RList; RAdd (view "V" "n" "a" "old"); RAdd (view "V" "n" "a" "new"); RTick 1; RTick 0], _.
  split_and!; [|vm_compute; reflexivity|vm_compute; split; reflexivity|vm_compute; reflexivity|vm_compute; reflexivity]. repeat constructor; try apply view_writable; done.
Qed.
Print Assumptions C31_stale_refuted.

(** The deletion is reported before the registration and the addition after it:
    the handler believes in an object that is gone for good. *)
Theorem C31_ghost_refuted : exists l r, Forall choice_ok l /\ rrun id_hash any_order (race0 ∅) l = Some r /\ finished r
  /\ r_cache r !! "n/a"%string = None /\ replayed (r_log r) ("n", "a")%string = Some (view "V" "n" "a" "x").
Proof.
  eexists [RAdd (view "V" "n" "a" "x"); RFind (view "V" "n" "a" ""); RTick 1; RTick 1; RRegister; RTick 0; RList], _.
  split_and!; [|vm_compute; reflexivity|vm_compute; split; reflexivity|vm_compute; reflexivity|vm_compute; reflexivity]. repeat constructor; try apply view_writable; done.
Qed.
Print Assumptions C31_ghost_refuted.

Definition orderlyb (r : race) (a : choice) : bool :=
  match choice_key a with
  | Some k => r_reg r && match r_replay r with Some [] => true | _ => false end && bool_decide (k ∉ map pend_key (r_open r))
  | None => true
  end.
Fixpoint orderly_runb (r : race) (l : list choice) : bool :=
  match l with
  | [] => true
  | a :: l => orderlyb r a && match rstep id_hash any_order r a with Some r' => orderly_runb r' l | None => true end
  end.
Lemma orderly_runb_ok l : forall r, orderly_runb r l = true -> orderly_run id_hash any_order r l.
Proof.
  induction l as [|a l IH]; intros r H; [done|]. cbn [orderly_runb] in H. apply andb_true_iff in H as [H1 H2]. cbn [orderly_run]. split.
  - unfold orderlyb, orderly in *. destruct (choice_key a); [|done]. apply andb_true_iff in H1 as [[H1 H3]%andb_true_iff H4]. split_and!; [done| |by apply bool_decide_eq_true in H4].
    by destruct (r_replay r) as [[]|].
  - destruct (rstep id_hash any_order r a); [by apply IH|done].
Qed.
Example ex_C31 : let l := [RRegister; RList; RAdd (view "V" "n" "a" "x"); RAdd (view "V" "n" "b" "x"); RTick 1; RTick 0; RUpdate (view "V" "n" "a" "x") (view "V" "n" "a" "y"); RFind (view "V" "n" "b" ""); RTick 1; RTick 1; RTick 0] in
  Forall choice_ok l /\ orderly_run id_hash any_order (race0 ∅) l
  /\ exists r, rrun id_hash any_order (race0 ∅) l = Some r /\ finished r /\ r_cache r !! "n/a"%string = Some (view "V" "n" "a" "y")
     /\ replayed (r_log r) ("n", "a")%string = Some (view "V" "n" "a" "y") /\ replayed (r_log r) ("n", "b")%string = None.
Proof.
  intros l. split_and!; [repeat constructor; try apply view_writable; done| |].
  - apply orderly_runb_ok. vm_compute. reflexivity.
  - eexists. split; [vm_compute; reflexivity|]. split; [vm_compute; split; reflexivity|]. split; [vm_compute; reflexivity|]. split; vm_compute; reflexivity.
Qed.

(** ** C32 *)

(** The watch sends the initial objects and the events of a handler, if they
    satisfy the selection.  If no write changes whether an object satisfies it,
    they amount to the objects that List returns for the same selection. *)
Theorem C32_watch_partial : forall hash lister before after x sel, lists_all lister -> Forall act_ok (before ++ after) -> is_object_kind x = true ->
  let s := vact_run hash lister vsys0 before in
  let i := vs_next s in ~ In (Leave i) after ->
  let s' := vact_run hash lister s (Listen x :: after) in
  steady (selects sel) no_objects (vs_log s' i) ->
  forall m, In m (vc_list lister (vs_cache s') (list_gvk x) sel) <-> get_gvk m = x /\ replayed (watched sel (vs_log s' i)) (obj_id m) = Some m.
Proof.
  intros hash lister before after x sel Hl Hok V s i N s' Hst m. unfold is_object_kind in V. apply andb_true_iff in V as [V Vl].
  destruct (listen_replay hash lister Hl before after x Hok V N) as (w & H & R). fold s i s' in H, R.
  rewrite (vc_list_in hash lister Hl _ _ _ _ _ H), object_list_gvk by (by destruct (has_suffix _ _)).
  unfold replayed, watched. rewrite (watched_only (selects sel) _ no_objects no_objects Hst) by done. unfold only.
  change (apply_ops no_objects (omap request_of (vs_log s' i)) (obj_id m)) with (replayed (vs_log s' i) (obj_id m)). rewrite R. unfold kind_of. split.
  - intros (Hw & Eg & Hs). split; [done|]. unfold source_id in Hw. rewrite Eg in Hw. by rewrite Hw, Hs.
  - intros (Eg & Hw). unfold source_id. rewrite Eg. destruct (w !! (x, obj_id m)) as [m'|]; [|done]. destruct (selects sel m') eqn:Es; [|done]. injection Hw as ->. done.
Qed.
Print Assumptions C32_watch_partial.

(** This is the case for all histories if the selection looks only at names and
    namespaces. *)
Theorem C32_names_partial : forall hash lister before after x sel, lists_all lister -> Forall act_ok (before ++ after) -> is_object_kind x = true ->
  (forall a b, obj_id a = obj_id b -> selects sel a = selects sel b) ->
  let s := vact_run hash lister vsys0 before in
  let i := vs_next s in ~ In (Leave i) after ->
  let s' := vact_run hash lister s (Listen x :: after) in
  forall m, In m (vc_list lister (vs_cache s') (list_gvk x) sel) <-> get_gvk m = x /\ replayed (watched sel (vs_log s' i)) (obj_id m) = Some m.
Proof. intros. apply C32_watch_partial; try done. by apply steady_id. Qed.
Print Assumptions C32_names_partial.

(** What is selected: the namespace, if one is given, is that of the object; the label
    selector sees its labels; and the field selector sees its name, its namespace, its phase
    and whether it is ready. *)
Theorem C32_fields : forall m f v, In (f, v) (field_set m) <->
  (f = "metadata.name"%string /\ v = match nested_get m ["metadata"; "name"] with Some (JStr s) => s | _ => EmptyString end)
  \/ (f = "metadata.namespace"%string /\ v = match nested_get m ["metadata"; "namespace"] with Some (JStr s) => s | _ => EmptyString end)
  \/ (f = "status.phase"%string /\ nested_get m ["status"; "phase"] = Some (JStr v))
  \/ (f = "status.ready"%string /\ ((nested_get m ["status"; "ready"] = Some (JBool true) /\ v = "true"%string) \/ (nested_get m ["status"; "ready"] = Some (JBool false) /\ v = "false"%string))).
Proof.
  intros m f v. unfold field_set. rewrite !in_app_iff. cbn [In]. unfold get_name, get_namespace, nested_str.
  assert (P : In (f, v) (match nested_get m ["status"; "phase"] with Some (JStr s) => [("status.phase"%string, s)] | _ => [] end) <-> f = "status.phase"%string /\ nested_get m ["status"; "phase"] = Some (JStr v)).
  { destruct (nested_get m ["status"; "phase"]) as [[]|]; cbn [In]; split; try (by intros [? [=]]); try done.
    - intros [[= <- <-]|[]]. done.
    - intros [-> [= ->]]. by left. }
  assert (R : In (f, v) (match nested_get m ["status"; "ready"] with Some (JBool b) => [("status.ready"%string, if b then "true"%string else "false"%string)] | _ => [] end)
    <-> f = "status.ready"%string /\ ((nested_get m ["status"; "ready"] = Some (JBool true) /\ v = "true"%string) \/ (nested_get m ["status"; "ready"] = Some (JBool false) /\ v = "false"%string))).
  { destruct (nested_get m ["status"; "ready"]) as [[|b| | | | |]|]; cbn [In]; split; try (by intros [? [[[=] _]|[[=] _]]]); try done.
    - intros [[= <- <-]|[]]. split; [done|]. destruct b; auto.
    - intros [-> [[[= ->] ->]|[[= ->] ->]]]; by left. }
  rewrite P, R. set (a := match nested_get m ["metadata"; "name"] with Some (JStr s) => s | _ => EmptyString end). set (b := match nested_get m ["metadata"; "namespace"] with Some (JStr s) => s | _ => EmptyString end).
  split.
  - intros [[E|[E|[]]]|[E|E]]; [injection E as <- <-; by left|injection E as <- <-; right; by left|right; right; by left|right; right; by right].
  - intros [[-> ->]|[[-> ->]|[E|E]]]; auto.
Qed.
Print Assumptions C32_fields.
Theorem C32_selects : forall ns labels fields m, selects (Selection ns labels fields) m = true <->
  (ns <> EmptyString -> match nested_get m ["metadata"; "namespace"] with Some (JStr s) => s | _ => EmptyString end = ns)
  /\ (forall f, labels = Some f -> f (get_labels m) = true) /\ (forall f, fields = Some f -> f (field_set m) = true).
Proof.
  intros ns labels fields m. unfold selects. cbn [sel_ns sel_labels sel_fields]. rewrite !andb_true_iff, orb_true_iff, !String.eqb_eq. unfold get_namespace, nested_str.
  assert (D : forall s : string, (ns = EmptyString \/ s = ns) <-> (ns <> EmptyString -> s = ns)) by (intros s; destruct (decide (ns = EmptyString)); tauto).
  assert (O : forall A (o : option (A -> bool)) (x : A), match o with None => true | Some f => f x end = true <-> forall f, o = Some f -> f x = true) by (intros A [g|] x; [split; [by intros ? f [= <-]|auto]|done]).
  rewrite D, !O. tauto.
Qed.
Print Assumptions C32_selects.
Example ex_C32_fields :
  field_set (view "V" "n" "a" "up") = [("metadata.name", "a"); ("metadata.namespace", "n"); ("status.phase", "up")]%string
  /\ selects (in_phase "up") (view "V" "n" "a" "up") = true /\ selects (in_phase "down") (view "V" "n" "a" "up") = false
  /\ selects (in_ns "n") (view "V" "n" "a" "up") = true /\ selects (in_ns "m") (view "V" "n" "a" "up") = false.
Proof. split_and!; vm_compute; reflexivity. Qed.

(** A reader that keeps up gets the events of the watch, in order. *)
Theorem C32_channel : forall cap l, keeps_up cap 0 l -> let '(waiting, received) := watch_run cap l in received ++ waiting = sent l.
Proof. intros cap l H. exact (watch_run_ok cap l [] [] H). Qed.
Print Assumptions C32_channel.

(** A watch holds 256 events for its reader; of a burst, exactly the rest is lost. *)
Theorem C32_burst : forall l : list wevent, watch_run watch_buffer (map Send l) = (firstn 256 l, []).
Proof.
  assert (A : forall cap l q, (length q <= cap)%nat -> foldl (watch_step cap) (q, []) (map Send l) = (q ++ firstn (cap - length q) l, [])).
  { intros cap l. induction l as [|e l IH]; intros q Hq; [cbn; by rewrite firstn_nil, app_nil_r|]. cbn [map foldl watch_step fst snd].
    destruct (length q <? cap)%nat eqn:E.
    - apply Nat.ltb_lt in E. rewrite IH by (rewrite app_length; cbn; lia). rewrite app_length. cbn [length].
      replace (cap - length q)%nat with (S (cap - (length q + 1)))%nat by lia. cbn [firstn]. by rewrite <- app_assoc.
    - apply Nat.ltb_ge in E. rewrite IH by lia. by replace (cap - length q)%nat with 0%nat by lia. }
  intros l. unfold watch_run. rewrite A by (cbn; lia). reflexivity.
Qed.
Print Assumptions C32_burst.

(** Refuted: an object that leaves the selection stays in the watch. *)
Theorem C32_leaving_refuted :
  let s := vact_run id_hash any_order vsys0 [Listen v_gvk; Do (VCreate (view "V" "n" "a" "up")); Do (VUpdate (view "V" "n" "a" "down"))] in
  replayed (watched (in_phase "up") (vs_log s 0)) ("n", "a")%string = Some (view "V" "n" "a" "up")
  /\ vc_list any_order (vs_cache s) (list_gvk v_gvk) (in_phase "up") = [].
Proof. vm_compute. split; reflexivity. Qed.
Print Assumptions C32_leaving_refuted.

(** And so it does when it is deleted after having left. *)
Theorem C32_leaving_deleted_refuted :
  let s := vact_run id_hash any_order vsys0 [Listen v_gvk; Do (VCreate (view "V" "n" "a" "up")); Do (VUpdate (view "V" "n" "a" "down")); Do (VDelete (view "V" "n" "a" ""))] in
  replayed (watched (in_phase "up") (vs_log s 0)) ("n", "a")%string = Some (view "V" "n" "a" "up") /\ vc_get (vs_cache s) v_gvk "n" "a" = None.
Proof. vm_compute. split; reflexivity. Qed.
Print Assumptions C32_leaving_deleted_refuted.

(** Refuted for slow readers, however large the channel: the last event is lost. *)
Theorem C32_slow_reader_refuted : forall cap, (cap > 0)%nat -> exists l,
  replayed (sent l) ("n", "a")%string = None
  /\ let '(waiting, received) := watch_run cap l in waiting = [] /\ replayed received ("n", "a")%string = Some (view "V" "n" "a" "x").
Proof.
  intros cap Hc. set (m := view "V" "n" "a" "x"). exists (repeat (Send (WCreate m)) cap ++ [Send (WDelete m)] ++ repeat Recv cap).
  assert (A : forall n q, (length q + n <= cap)%nat -> foldl (watch_step cap) (q, []) (repeat (Send (WCreate m)) n) = (q ++ repeat (WCreate m) n, [])).
  { induction n as [|n IH]; intros q Hn; [cbn; by rewrite app_nil_r|]. cbn [repeat foldl watch_step fst snd]. rewrite (proj2 (Nat.ltb_lt _ _)) by lia.
    rewrite IH by (rewrite app_length; cbn; lia). by rewrite <- app_assoc. }
  assert (B : forall n r, foldl (watch_step cap) (repeat (WCreate m) n, r) (repeat Recv n) = ([], r ++ repeat (WCreate m) n)).
  { induction n as [|n IH]; intros r; [cbn; by rewrite app_nil_r|]. cbn [repeat foldl watch_step fst snd]. rewrite IH. by rewrite <- app_assoc. }
  assert (R : forall n, (n > 0)%nat -> replayed (repeat (WCreate m) n) ("n", "a")%string = Some m).
  { intros n Hn. unfold replayed. assert (G : forall (T : contents), apply_ops T (omap request_of (repeat (WCreate m) n)) ("n", "a")%string = Some m); [|apply G].
    destruct n as [|n]; [lia|]. clear. induction n as [|n IH]; intros T; [reflexivity|]. exact (IH (apply_op T (Delta Added m))). }
  split.
  - unfold sent. rewrite omap_app. rewrite omap_app. unfold replayed. rewrite !omap_app. unfold apply_ops. rewrite foldl_app, foldl_app.
    assert (Z : omap (fun a => match a with Send e => Some e | Recv => None end) (repeat Recv cap) = []) by (clear; induction cap; done). rewrite Z. cbn. done.
  - unfold watch_run. rewrite !foldl_app. rewrite A by (cbn; lia). cbn [app foldl watch_step fst snd]. rewrite repeat_length, Nat.ltb_irrefl. rewrite B. split; [done|]. by apply R.
Qed.
Print Assumptions C32_slow_reader_refuted.

Example ex_C32 : (forall a b, obj_id a = obj_id b -> selects (in_ns "n") a = selects (in_ns "n") b)
  /\ (let before := [Do (VCreate (view "V" "n" "a" "x")); Do (VCreate (view "V" "m" "a" "x"))] in
      let s := vact_run id_hash any_order vsys0 (before ++ [Listen v_gvk; Do (VCreate (view "V" "n" "b" "x")); Do (VDelete (view "V" "n" "a" ""))]) in
      watched (in_ns "n") (vs_log s 0) = [WCreate (view "V" "n" "a" "x"); WCreate (view "V" "n" "b" "x"); WDelete (view "V" "n" "a" "x")]
      /\ vc_list any_order (vs_cache s) (list_gvk v_gvk) (in_ns "n") = [view "V" "n" "b" "x"])
  /\ keeps_up watch_buffer 0 [Send (WCreate (view "V" "n" "a" "x")); Recv; Recv; Send (WDelete (view "V" "n" "a" "x"))].
Proof.
  split; [|split; [vm_compute; split; reflexivity|]].
  - intros a b E. unfold obj_id in E. injection E as E1 E2. unfold selects. cbn [sel_ns sel_labels sel_fields in_ns]. by rewrite E1.
  - cbn [keeps_up]. unfold watch_buffer. lia.
Qed.

(** ** C50 *)

(** After any history, writing a sub-resource (status) of an object replaces that
    field of the stored object and nothing else; other objects stay. *)
Theorem C50_sub_resource_partial : forall hash lister ops sub m, lists_all lister -> Forall op_ok ops -> op_ok (VSubUpdate sub m) ->
  let c := (cache_run hash lister ∅ ops).1.1 in
  let '(c', _, r) := vstep hash lister c (VSubUpdate sub m) in
  forall x ns name, is_view_kind x = true -> plain (ns, name) ->
  vc_get c' x ns name =
    match vc_get c x ns name, mget m sub with
    | Some old, Some (JMap v) => Some (if decide (source_id m = (x, (ns, name))) then mset old sub (JMap v) else old)
    | old, _ => old
    end.
Proof.
  intros hash lister ops sub m Hl Ho Hs c. assert (R := cache_run_sim hash lister Hl ops ∅ ∅ (sim_empty hash) Ho). subst c.
  destruct (cache_run hash lister ∅ ops) as [[c es] rs]. destruct (ideal_run hash ∅ ops) as [w rs']. destruct R as (R1 & _ & _). cbn [fst].
  destruct (vstep_sim hash lister Hl c w _ R1 Hs) as (S1 & _ & _). destruct (vstep hash lister c (VSubUpdate sub m)) as [[c' es'] r]. cbn [fst snd] in S1.
  intros x ns name V Hp. rewrite (vc_get_sim hash _ _ _ _ _ S1 V Hp), (vc_get_sim hash _ _ _ _ _ R1 V Hp). cbn [ideal_step] in *.
  destruct (w !! source_id m) as [old|] eqn:E.
  - destruct (mget m sub) as [[| | | | | |v]|]; cbn [fst]; try (by destruct (w !! (x, (ns, name)))).
    destruct (decide (source_id m = (x, (ns, name)))) as [Es|Ns]; [by rewrite <- Es, lookup_insert, E|]. rewrite lookup_insert_ne by done. by destruct (w !! (x, (ns, name))).
  - cbn [fst]. destruct (w !! (x, (ns, name))) as [old|] eqn:E'; [|done]. destruct (mget m sub) as [[]|]; try done. rewrite decide_False; [done|]. intros Es. by rewrite Es, E' in E.
Qed.
Print Assumptions C50_sub_resource_partial.

(** The update of an object, on the other hand, replaces the status too. *)
Theorem C50_update_refuted :
  let c := (cache_run id_hash any_order ∅ [VCreate (view "V" "n" "a" "up"); VUpdate (mdel (view "V" "n" "a" "up") "status")]).1.1 in
  match vc_get c v_gvk "n" "a" with Some m => mget m "status" = None | None => False end.
Proof. vm_compute. reflexivity. Qed.
Print Assumptions C50_update_refuted.

Example ex_C50 : op_ok (VSubUpdate "status" (view "V" "n" "a" "down" ++ [("zone"%string, JInt 1)]))
  /\ let c := (cache_run id_hash any_order ∅ [VCreate (view "V" "n" "a" "up"); VSubUpdate "status" (view "V" "n" "a" "down" ++ [("zone"%string, JInt 1)])]).1.1 in
     vc_get c v_gvk "n" "a" = Some (view "V" "n" "a" "down").
Proof. split; [|vm_compute; reflexivity]. repeat constructor; try apply own_v; simpl; try done. Qed.
