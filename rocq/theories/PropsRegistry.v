(** Property C40: which view resources the extension API server serves. *)
From Verif Require Import RegistryModel RegistrySpec GroupProofs RegistryProofs RegistryProofs2 RegistryProofs3.

(** A resource of a view group is served exactly when a kind of the most recent
    registration of the group has that name, and it is served by such a kind.
    Kinds that differ in case only share a name.  Missing: histories in which a
    registration drops a kind without unregistering the group, kinds that the
    Kubernetes machinery refuses, failing field managers (see the refutations). *)
Theorem C40_served_partial : forall servable cs g v r, calls_ok servable cs -> never_drops cs -> view_group_name g ->
  let s := (rrun servable api_new cs).1 in
  (served s g v r <-> v = "v1alpha1"%string /\ exists x, x ∈ latest cs g /\ lower (gvk_kind x) = r)
  /\ (forall x, served_by s g v r x -> x ∈ latest cs g /\ lower (gvk_kind x) = r).
Proof.
  intros servable cs g v r OK ND G s. apply vgn in G.
  assert (A : forall x, served_by s g v r x -> v = "v1alpha1"%string /\ x ∈ latest cs g /\ lower (gvk_kind x) = r).
  { intros x H. destruct (served_ever servable _ _ _ _ _ OK H) as (_ & _ & Q & Q'). split; [done|]. split; [by eapply served_current|done]. }
  split; [split|].
  - intros (x & H). destruct (A x H) as (? & ? & ?). split; [done|]. by exists x.
  - intros (-> & x & Hx & <-). destruct (current_served servable cs g x OK G Hx) as (y & _ & _ & H). by exists y.
  - intros x H. by destruct (A x H).
Qed.
Print Assumptions C40_served_partial.

(** So if the kinds differ in more than case, each is served under its own name. *)
Theorem C40_kind_partial : forall servable cs g x, calls_ok servable cs -> never_drops cs -> view_group_name g -> gvk_group x = g -> case_distinct (latest cs g) ->
  served_by (rrun servable api_new cs).1 g (gvk_version x) (lower (gvk_kind x)) x <-> x ∈ latest cs g.
Proof.
  intros servable cs g x OK ND G Gx CD. split.
  - intros H. by destruct (proj2 (C40_served_partial servable cs g _ _ OK ND G) x H).
  - intros Hx. apply vgn in G. destruct (latest_view servable cs g x OK G Hx) as (_ & _ & ->).
    destruct (current_served servable cs g x OK G Hx) as (y & Hy & E & H). assert (x = y) by (by apply CD). by subst y.
Qed.
Print Assumptions C40_kind_partial.

(** Even if registrations drop kinds: the kinds of the most recent registration
    are served, nothing is served that never was registered, and no call fails. *)
Theorem C40_current : forall servable cs g, calls_ok servable cs -> view_group_name g ->
  let s := (rrun servable api_new cs).1 in
  (forall x, x ∈ latest cs g -> exists y, y ∈ latest cs g /\ lower (gvk_kind y) = lower (gvk_kind x) /\ served_by s g "v1alpha1" (lower (gvk_kind x)) y)
  /\ (forall v r x, served_by s g v r x -> ever cs x /\ gvk_group x = g /\ v = "v1alpha1"%string /\ r = lower (gvk_kind x))
  /\ Forall (eq Done) (rrun servable api_new cs).2.
Proof.
  intros servable cs g OK G s. apply vgn in G. split; [|split].
  - intros x Hx. by eapply current_served.
  - intros v r x H. by eapply served_ever.
  - by destruct (run_ok servable cs OK) as (_ & _ & ? & _).
Qed.
Print Assumptions C40_current.

(** The discovery documents list exactly the most recent registration, also if
    registrations drop kinds. *)
Theorem C40_discovery : forall servable cs g, calls_ok servable cs -> view_group_name g ->
  let s := (rrun servable api_new cs).1 in
  let resources := match latest cs g with [] => None | l => Some (map (fun x => (lower (gvk_kind x), x)) l) end in
  discover_version s g "v1alpha1" = resources /\ discover_aggregated s g "v1alpha1" = resources
  /\ discover_group s g = match latest cs g with [] => None | _ => Some ["v1alpha1"%string] end.
Proof.
  intros servable cs g OK G s resources. apply vgn in G. assert (E : resources = expected (latest cs g)) by (unfold resources; by destruct (latest cs g)).
  rewrite E. exact (discovered servable cs g OK G).
Qed.
Print Assumptions C40_discovery.

(** Also with several versions, whatever was registered before: the document of the
    group lists all of them; the one for v1alpha1 lists its own kinds, and those for
    other versions are empty. *)
Theorem C40_versions : forall servable s s' g l, register_group servable s g l = (s', Done) -> view_group_name g -> Forall (fun x => gvk_group x = g) l ->
  (forall v, (exists x, x ∈ l /\ gvk_version x = v) ->
     exists rs, discover_version s' g v = Some rs /\ discover_aggregated s' g v = Some rs
       /\ forall r x, (r, x) ∈ rs <-> x ∈ l /\ gvk_version x = v /\ v = "v1alpha1"%string /\ r = lower (gvk_kind x))
  /\ (exists vs, discover_group s' g = Some vs /\ NoDup vs /\ forall v, v ∈ vs <-> exists x, x ∈ l /\ gvk_version x = v).
Proof.
  intros servable s s' g l R G F. apply vgn in G. unfold register_group in R. rewrite G in R. cbn [negb] in R.
  destruct (add_types_to_scheme (scheme s) l) as [sch []]; [|done]. cbn [negb storage] in R. destruct (add_storages servable _ l) as [st []]; [|done]. cbn [negb] in R.
  destruct l as [|x0 l0]; [done|]. remember (x0 :: l0) as l eqn:El. clear El. injection R as <-.
  assert (Ev : forall v, v ∈ versions_of l <-> exists x, x ∈ l /\ gvk_version x = v).
  { intros v. unfold versions_of. rewrite elem_of_remove_dups, elem_of_list_fmap. naive_solver. }
  assert (Hl : forall v r x, (r, x) ∈ listed l v <-> x ∈ l /\ gvk_version x = v /\ v = "v1alpha1"%string /\ r = lower (gvk_kind x)).
  { intros v r x. unfold listed. rewrite elem_of_list_omap. split.
    - intros (y & Hy & E). case_decide as Dv; [|done]. unfold find_resource in E. destruct (is_view_kind y) eqn:V; [|done]. cbn in E. simplify_eq. split_and!; [done..| |done].
      unfold is_view_kind, is_view_gv in V. apply andb_true_iff in V as [_ V]. by apply String.eqb_eq in V.
    - intros (Hx & E1 & E2 & ->). exists x. split; [done|]. rewrite decide_True by done. rewrite Forall_forall in F. unfold find_resource, is_view_kind, is_view_gv. rewrite (F x Hx), G, E1, E2. done. }
  split.
  - intros v Hv. apply Ev in Hv. exists (listed l v). split_and!; [| |by intros].
    + unfold discover_version. cbn. apply foldr_versions; done.
    + unfold discover_aggregated. cbn. rewrite lookup_insert. cbn. apply foldr_listed; done.
  - exists (versions_of l). unfold discover_group. cbn. rewrite lookup_insert. split; [done|]. split; [apply NoDup_remove_dups|done].
Qed.
Print Assumptions C40_versions.
Definition two_versions : list gvk := [GVK "op.view.dcontroller.io" "v1alpha1" "V"; GVK "op.view.dcontroller.io" "v2" "W"].
Example ex_C40_versions :
  let '(s, o) := register_group (fun _ => true) api_new "op.view.dcontroller.io" two_versions in
  o = Done /\ discover_group s "op.view.dcontroller.io" = Some ["v1alpha1"; "v2"]%string
  /\ discover_version s "op.view.dcontroller.io" "v1alpha1" = Some [("v"%string, GVK "op.view.dcontroller.io" "v1alpha1" "V")]
  /\ discover_version s "op.view.dcontroller.io" "v2" = Some [].
Proof. vm_compute. split_and!; reflexivity. Qed.

(** After a group is unregistered nothing of it is served or listed. *)
Theorem C40_unregister_partial : forall servable cs g v r, calls_ok servable (cs ++ [UnregisterGroup g]) -> never_drops (cs ++ [UnregisterGroup g]) -> view_group_name g ->
  let s := (rrun servable api_new (cs ++ [UnregisterGroup g])).1 in
  ~ served s g v r /\ discover_version s g "v1alpha1" = None /\ discover_group s g = None.
Proof.
  intros servable cs g v r OK ND G s.
  assert (L : latest (cs ++ [UnregisterGroup g]) g = []) by (rewrite latest_snoc; cbn; by rewrite decide_True).
  destruct (C40_discovery servable _ g OK G) as (A & _ & B). fold s in A, B. rewrite L in A, B. split; [|done].
  intros H. apply (C40_served_partial servable _ g v r OK ND G) in H. destruct H as (_ & x & Hx & _). rewrite L in Hx. by apply elem_of_nil in Hx.
Qed.
Print Assumptions C40_unregister_partial.

(** A call that is about other groups does not change what a group serves,
    whatever happened before, failures and panics included. *)
Theorem C40_other_groups : forall servable cs c g v r, (forall c, c ∈ cs ++ [c] -> lists_own c) -> ~ concerns c g ->
  forall x, served_by (rrun servable api_new (cs ++ [c])).1 g v r x <-> served_by (rrun servable api_new cs).1 g v r x.
Proof.
  intros servable cs c g v r L N x. rewrite !served_storage, rrun_app.
  assert (R : reg_own (rrun servable api_new cs).1).
  { apply rrun_own; [intros d Hd; apply L, elem_of_app; by left|]. intros g' l. cbn. by rewrite lookup_empty. }
  destruct (call_other servable (rrun servable api_new cs).1 c) as [_ B]; [apply L, elem_of_app; right; left|done|].
  by rewrite (B g v r N).
Qed.
Print Assumptions C40_other_groups.

(** While a group is registered again its storages are swapped one by one; what
    was served stays served at every point. *)
Theorem C40_no_interruption : forall servable st l1 g v r,
  let at_storage st := APIServer ∅ st ∅ ∅ ∅ ∅ in
  served (at_storage st) g v r -> served (at_storage (add_storages servable st l1).1) g v r.
Proof.
  intros servable st l1 g v r at_storage (x & H). apply served_storage in H. destruct H as [G H].
  destruct (add_storages_keeps servable l1 st (g, v, r)) as [y Hy]; [by eexists|]. exists y. apply served_storage. done.
Qed.
Print Assumptions C40_no_interruption.

(** *** The hypotheses can be met *)
Definition vk (op kind : string) : gvk := GVK (view_group op) "v1alpha1" kind.
Definition og : string := view_group "op".
Definition ex_calls : list rcall :=
  [RegisterGVKs [og; ""%string; view_group "other"] [vk "op" "Health"; GVK "" "v1" "Pod"; vk "op" "Route"; vk "other" "Health"];
   UnregisterGVKs [og] [vk "op" "Health"];
   RegisterGroup og [vk "op" "Health"];
   RegisterGroup og [vk "op" "Route"; vk "op" "Health"]].
Definition all_served : gvk -> bool := fun _ => true.
Lemma calls_ok_check cs : forallb (fun c => match c with
    | RegisterGroup g l => negb (bool_decide (l = [])) && forallb (fun x => bool_decide (gvk_group x = g)) l
    | UnregisterGroup _ => true
    | RegisterGVKs o l | UnregisterGVKs o l => bool_decide (NoDup o) && forallb (fun g => existsb (fun x => bool_decide (gvk_group x = g)) l) o && forallb (fun x => bool_decide (gvk_group x ∈ o)) l
    end) cs = true ->
  let M := concat (map (fun c => match c with RegisterGroup _ l | RegisterGVKs _ l => List.filter (fun x => is_view_group (gvk_group x)) l | _ => [] end) cs) in
  forallb (fun x => bool_decide (gvk_version x = "v1alpha1"%string) && bool_decide (gvk_kind x ∉ reserved) &&
    forallb (fun y => negb (bool_decide (gvk_group y = gvk_group x) && bool_decide (gvk_kind y = (gvk_kind x +:+ "List")%string))) M) M = true -> calls_ok all_served cs.
Proof.
  intros H1 M H2.
  assert (ME : forall x, ever cs x -> x ∈ M).
  { intros x (c & Hc & G & Hx). apply elem_of_list_In, in_concat. eexists. split; [apply in_map_iff; exists c; split; [reflexivity|by apply elem_of_list_In]|].
    apply vgn in G. destruct c; try done; apply filter_In; (split; [by apply elem_of_list_In|done]). }
  split.
  - intros c Hc. rewrite forallb_forall in H1. specialize (H1 c (proj1 (elem_of_list_In _ _) Hc)). 
    assert (OO : forall o l, bool_decide (NoDup o) && forallb (fun g => existsb (fun x => bool_decide (gvk_group x = g)) l) o && forallb (fun x => bool_decide (gvk_group x ∈ o)) l = true -> order_of o l).
    { intros o l H. apply andb_prop in H as [H HC]. apply andb_prop in H as [HA HB]. rewrite forallb_forall in HB, HC. split; [by eapply bool_decide_eq_true|]. intros g. split.
      - intros Hg. specialize (HB g (proj1 (elem_of_list_In _ _) Hg)). apply existsb_exists in HB. destruct HB as (x & Hx & E). exists x. split; [by apply elem_of_list_In|by eapply bool_decide_eq_true].
      - intros (x & Hx & <-). specialize (HC x (proj1 (elem_of_list_In _ _) Hx)). by eapply bool_decide_eq_true. }
    destruct c as [g l|g|o l|o l]; cbn; [|done|by apply OO|by apply OO]. apply andb_prop in H1 as [HA HB]. split.
    + intros ->. by rewrite bool_decide_eq_true_2 in HA.
    + intros x Hx. rewrite forallb_forall in HB. specialize (HB x (proj1 (elem_of_list_In _ _) Hx)). by eapply bool_decide_eq_true.
  - intros x Hx. rewrite forallb_forall in H2. specialize (H2 x (proj1 (elem_of_list_In _ _) (ME x Hx))).
    apply andb_prop in H2 as [H2 HC]. apply andb_prop in H2 as [HA HB]. split; [by eapply bool_decide_eq_true|]. split; [done|]. split; [by eapply bool_decide_eq_true|].
    intros y Hy E1 E2. rewrite forallb_forall in HC. specialize (HC y (proj1 (elem_of_list_In _ _) (ME y Hy))).
    rewrite (bool_decide_eq_true_2 _ E1), (bool_decide_eq_true_2 _ E2) in HC. done.
Qed.
Example ex_C40 : calls_ok all_served ex_calls /\ never_drops ex_calls /\ case_distinct (latest ex_calls og) /\ latest ex_calls og = [vk "op" "Route"; vk "op" "Health"]
  /\ served_by (rrun all_served api_new ex_calls).1 og "v1alpha1" "route" (vk "op" "Route").
Proof.
  split; [apply calls_ok_check; vm_compute; reflexivity|]. split; [|split; [|split; vm_compute; reflexivity]].
  - intros pre c post g x E Hx. unfold ex_calls in E.
    assert (L0 : forall g, latest_step g [] (RegisterGVKs [og; ""%string; view_group "other"] [vk "op" "Health"; GVK "" "v1" "Pod"; vk "op" "Route"; vk "other" "Health"]) = [] \/ g <> og \/ g = og) by (intros g'; destruct (decide (g' = og)); auto).
    destruct pre as [|c0 pre]; [by apply elem_of_nil in Hx|]. injection E as <- E.
    destruct pre as [|c1 pre]; cbn [app] in E.
    + injection E as <- E. unfold latest in *. cbn [app fold_left] in *. unfold latest_step in *.
      destruct (decide (g = og)) as [->|N]; [left; vm_compute; reflexivity|].
      right. assert (Q : in_group g [vk "op" "Health"] = []) by (apply in_group_nil; intros y Hy; apply elem_of_list_singleton in Hy; subst y; done).
      by rewrite Q.
    + injection E as <- E. destruct pre as [|c2 pre]; cbn [app] in E.
      * injection E as <- E. unfold latest in *. cbn [app fold_left] in *. unfold latest_step in *. destruct (decide (og = g)) as [<-|N]; [|by right].
        exfalso. change (x ∈ ([] : list gvk)) in Hx. by apply elem_of_nil in Hx.
      * injection E as <- E. destruct pre as [|c3 pre]; cbn [app] in E; [|injection E as <- E; by destruct pre].
        injection E as <- E. unfold latest in *. cbn [app fold_left] in *. unfold latest_step in *. destruct (decide (og = g)) as [<-|N]; [|by right].
        right. apply elem_of_list_singleton in Hx. subst x. right. left.
  - intros x y Hx Hy E. change (x ∈ [vk "op" "Route"; vk "op" "Health"]) in Hx. change (y ∈ [vk "op" "Route"; vk "op" "Health"]) in Hy.
    apply elem_of_cons in Hx. apply elem_of_cons in Hy. destruct Hx as [->|Hx], Hy as [->|Hy]; try done;
      repeat match goal with H : _ ∈ [_] |- _ => apply elem_of_list_singleton in H; subst end; try done; vm_compute in E; discriminate.
Qed.
Example ex_C40_unregister : calls_ok all_served (ex_calls ++ [UnregisterGroup og]).
Proof. apply calls_ok_check; vm_compute; reflexivity. Qed.
Example ex_C40_other : ~ concerns (UnregisterGroup og) (view_group "other") /\ (forall c, c ∈ ex_calls ++ [UnregisterGroup og] -> lists_own c).
Proof.
  split; [cbn; vm_compute; discriminate|]. intros c Hc.
  repeat (apply elem_of_cons in Hc; destruct Hc as [->|Hc]; [cbn; try done; intros x Hx; repeat (apply elem_of_cons in Hx; destruct Hx as [->|Hx]; [reflexivity|]); by apply elem_of_nil in Hx|]).
  by apply elem_of_nil in Hc.
Qed.

(** *** Where it is false *)

(** A kind that a registration drops stays served, although discovery no longer
    lists it, and unregistering the group does not remove it. *)
Definition dropping : list rcall := [RegisterGroup og [vk "op" "Health"; vk "op" "Route"]; RegisterGroup og [vk "op" "Health"]].
Theorem C40_dropped_refuted :
  let s := (rrun all_served api_new dropping).1 in
  let s' := (rrun all_served api_new (dropping ++ [UnregisterGroup og])).1 in
  served_by s og "v1alpha1" "route" (vk "op" "Route") /\ latest dropping og = [vk "op" "Health"]
  /\ discover_version s og "v1alpha1" = Some [("health"%string, vk "op" "Health")]
  /\ served_by s' og "v1alpha1" "route" (vk "op" "Route") /\ discover_group s' og = None.
Proof. vm_compute. done. Qed.
Print Assumptions C40_dropped_refuted.

(** Of two kinds that differ in case only one is reachable, the last one; both are
    listed, under the same resource name. *)
Theorem C40_case_refuted :
  let s := (rrun all_served api_new [RegisterGroup og [vk "op" "Health"; vk "op" "HEALTH"]]).1 in
  served_by s og "v1alpha1" "health" (vk "op" "HEALTH") /\ (forall v r, ~ served_by s og v r (vk "op" "Health"))
  /\ discover_version s og "v1alpha1" = Some [("health"%string, vk "op" "Health"); ("health"%string, vk "op" "HEALTH")].
Proof.
  split; [vm_compute; reflexivity|]. split; [|vm_compute; reflexivity]. intros v r H.
  assert (OK : calls_ok all_served [RegisterGroup og [vk "op" "Health"; vk "op" "HEALTH"]]) by (apply calls_ok_check; vm_compute; reflexivity).
  destruct (served_ever all_served _ _ _ _ _ OK H) as (_ & _ & -> & ->). vm_compute in H. discriminate.
Qed.
Print Assumptions C40_case_refuted.

(** Registering a kind and that kind with "List" appended panics, as do the kinds
    that the Kubernetes machinery uses itself.  The types stay known, so the second
    kind panics also after the first one was unregistered. *)
Theorem C40_list_kind_refuted :
  (rrun all_served api_new [RegisterGroup og [vk "op" "Route"; vk "op" "RouteList"]]).2 = [Panicked]
  /\ (rrun all_served api_new [RegisterGroup og [vk "op" "Route"]; UnregisterGroup og; RegisterGroup og [vk "op" "RouteList"]]).2 = [Done; Done; Panicked]
  /\ (rrun all_served api_new [RegisterGroup og [vk "op" "WatchEvent"]]).2 = [Panicked]
  /\ (rrun all_served api_new [RegisterGroup og []]).2 = [Panicked].
Proof. vm_compute. done. Qed.
Print Assumptions C40_list_kind_refuted.

(** A registration that fails in the middle serves the kinds before the failure,
    and unregistering the group does not remove them. *)
Theorem C40_failure_refuted :
  let servable x := negb (bool_decide (gvk_kind x = "Bad"%string)) in
  let r := rrun servable api_new [RegisterGroup og [vk "op" "Health"; vk "op" "Bad"]; UnregisterGroup og] in
  r.2 = [Failed; Done] /\ served_by r.1 og "v1alpha1" "health" (vk "op" "Health") /\ discover_group r.1 og = None.
Proof. vm_compute. done. Qed.
Print Assumptions C40_failure_refuted.

(** Kinds of a view group with another version are accepted and their version is
    listed, but nothing is served for them. *)
Theorem C40_version_refuted :
  let x := GVK og "v1" "Health" in
  let r := rrun all_served api_new [RegisterGroup og [x]] in
  r.2 = [Done] /\ discover_group r.1 og = Some ["v1"%string] /\ serve_http r.1 (Request og "v1" "health" "" "get") = Delegate.
Proof. vm_compute. done. Qed.
Print Assumptions C40_version_refuted.
