(** Property C66: the OpenAPI definitions describe the registered kinds. *)
From Verif Require Import OpenModel GroupSpec RegistrySpec OpenSpec RegistryProofs2 OpenProofs PropsRegistry.

(** Kinds are registered and unregistered, requests for the definitions come in at any
    time and their steps are interleaved in any way, for both versions of OpenAPI.  If no
    registration falls between the moment a request finds nothing cached and the moment it
    stores what it has generated, then each answer has definitions for exactly the kinds
    that are registered when it is given.
    Missing: the condition on the registrations, see [C66_stale_refuted], and Kinds with
    dots, see [C66_dots_refuted]. *)
Theorem C66_current_partial : forall servable base iter l k d, iterates iter -> calls_ok servable (calls_in l) -> dotless (calls_in l) ->
  undisturbed (open_run servable base iter) l ->
  (forall e, os_reqs (open_run servable base iter l) !! k <> Some (Answered e)) -> os_reqs (open_run servable base iter (l ++ [OStep k])) !! k = Some (Answered d) ->
  describes base (current (calls_in l)) d.
Proof.
  intros servable base iter l k d Hi OK Hd U N H. destruct (answered_fresh servable base iter l k d U H N) as [j ->]. by apply gen_current.
Qed.
Print Assumptions C66_current_partial.

(** Without that condition each answer still is consistent: it has definitions for exactly
    the kinds that were registered at some moment before. *)
Theorem C66_consistent_partial : forall servable base iter l k d, iterates iter -> calls_ok servable (calls_in l) -> dotless (calls_in l) ->
  os_reqs (open_run servable base iter l) !! k = Some (Answered d) ->
  exists pre post, l = pre ++ post /\ describes base (current (calls_in pre)) d.
Proof.
  intros servable base iter l k d Hi OK Hd H. destruct (pa_answer _ _ _ _ (past_all servable base iter l) k d H) as (p & j & [q ->] & ->).
  exists p, q. split; [done|]. unfold calls_in in OK, Hd. rewrite omap_app in OK, Hd. apply gen_current; [done|by eapply calls_prefix|by eapply dotless_prefix].
Qed.
Print Assumptions C66_consistent_partial.

(** An answer is always given after three steps of the request. *)
Theorem C66_answered : forall servable base iter l k, (k < length (os_reqs (open_run servable base iter l)))%nat ->
  exists d, os_reqs (open_run servable base iter (l ++ [OStep k; OStep k; OStep k])) !! k = Some (Answered d).
Proof.
  intros servable base iter l k H. change [OStep k; OStep k; OStep k] with ([OStep k] ++ [OStep k] ++ [OStep k]). rewrite !app_assoc, !orun_snoc. set (s := open_run servable base iter l) in *. clearbody s.
  cbn [open_step]. assert (D : forall s d, os_reqs s !! k = Some (Answered d) -> req_step base iter s k = s) by (intros t d E; unfold req_step; by rewrite E).
  assert (M : forall s v d, os_reqs s !! k = Some (Made v d) -> os_reqs (req_step base iter s k) !! k = Some (Answered d)).
  { intros t v d E. unfold req_step. rewrite E. cbn [os_reqs]. replace (os_reqs (store v d t)) with (os_reqs t) by (by destruct v). apply list_lookup_insert. by eapply lookup_lt_Some. }
  assert (N : forall s v, os_reqs s !! k = Some (Missed v) -> os_reqs (req_step base iter s k) !! k = Some (Made v (generate base iter k (registered (os_api s))))).
  { intros t v E. unfold req_step. rewrite E. cbn [os_reqs]. apply list_lookup_insert. by eapply lookup_lt_Some. }
  apply lookup_lt_is_Some in H as [[v|v|v d|d] E].
  - assert (E1 : os_reqs (req_step base iter s k) !! k = Some (match cached v s with Some d => Answered d | None => Missed v end)).
    { unfold req_step. rewrite E. cbn [os_reqs]. apply list_lookup_insert. by eapply lookup_lt_Some. }
    destruct (cached v s) as [d|]; [exists d; by rewrite !(D _ d E1)|]. eexists. eapply M, N, E1.
  - assert (E1 := M _ _ _ (N s v E)). rewrite (D _ _ E1). by eexists.
  - assert (E1 := M _ _ _ E). rewrite !(D _ _ E1). by eexists.
  - rewrite !(D _ _ E). by exists d.
Qed.
Print Assumptions C66_answered.

Definition any_order (_ : nat) (r : gmap string (list gvk)) : list gvk := concat (map snd (map_to_list r)).
Lemma any_order_ok : iterates any_order.
Proof.
  intros k r x. unfold any_order. rewrite elem_of_list_In, in_concat. split.
  - intros (l & Hl & Hx). apply in_map_iff in Hl as ([g l'] & <- & Hl). apply elem_of_list_In, elem_of_map_to_list in Hl. exists g, l'. split; [done|]. by apply elem_of_list_In.
  - intros (g & l & Hl & Hx). exists l. split; [|by apply elem_of_list_In]. apply in_map_iff. exists (g, l). split; [done|]. by apply elem_of_list_In, elem_of_map_to_list.
Qed.
Definition some_base : odefs := <["io.k8s.api.core.v1.Pod"%string := ODef "Pod" (Some (GVK "" "v1" "Pod")) None [] false]> ∅.
Definition ask_run : list oact -> oserver := open_run all_served some_base any_order.
(** The kinds for which the last request got definitions *)
Definition told (s : oserver) : option (list (string * string)) :=
  match last (os_reqs s) with
  | Some (Answered d) => Some (omap (fun e => (fun x => (e.1, gvk_kind x)) <$> od_gvk e.2) (map_to_list d))
  | _ => None
  end.
Definition ask (k : nat) (v : oversion) : list oact := [OAsk v; OStep k; OStep k; OStep k].
Definition quiet_acts : list oact := ask 0 V2 ++ [ORegister og [vk "op" "Route"]] ++ ask 1 V2 ++ [ORegister og [vk "op" "Health"]; OAsk V3] ++ [OStep 2; OStep 2].
Example ex_C66 : iterates any_order /\ calls_ok all_served (calls_in quiet_acts) /\ dotless (calls_in quiet_acts) /\ undisturbed ask_run quiet_acts
  /\ told (ask_run (ask 0 V2 ++ [ORegister og [vk "op" "Route"]] ++ ask 1 V2)) = Some [("io.k8s.api.core.v1.Pod", "Pod"); ("op.view.dcontroller.io.v1alpha1.Route", "Route"); ("op.view.dcontroller.io/v1alpha1.RouteList", "RouteList")]%string
  /\ told (ask_run quiet_acts) = None
  /\ told (ask_run (quiet_acts ++ [OStep 2])) = Some [("io.k8s.api.core.v1.Pod", "Pod"); ("op.view.dcontroller.io.v1alpha1.Health", "Health"); ("op.view.dcontroller.io/v1alpha1.HealthList", "HealthList")]%string.
Proof.
  assert (Ev : forall x, ever (calls_in quiet_acts) x -> x = vk "op" "Route" \/ x = vk "op" "Health").
  { intros x (c & Hc & _ & Hx). vm_compute in Hc. apply elem_of_cons in Hc as [->|Hc]; [apply elem_of_list_singleton in Hx; by left|]. apply elem_of_list_singleton in Hc as ->. apply elem_of_list_singleton in Hx. by right. }
  split; [exact any_order_ok|]. split; [|split; [|split; [|split_and!; vm_compute; reflexivity]]].
  - split.
    + intros c Hc. vm_compute in Hc. apply elem_of_cons in Hc as [->|Hc]; [|apply elem_of_list_singleton in Hc as ->]; (split; [done|]); intros x Hx; apply elem_of_list_singleton in Hx as ->; reflexivity.
    + intros x Hx. apply Ev in Hx. split; [by destruct Hx as [-> | ->]|]. split; [done|]. split; [destruct Hx as [-> | ->]; apply (bool_decide_eq_true _); vm_compute; reflexivity|].
      intros y Hy _. apply Ev in Hy. destruct Hx as [-> | ->], Hy as [-> | ->]; done.
  - intros x Hx. apply Ev in Hx as [-> | ->]; by repeat split.
  - intros pre a post E [c Hc].
    assert (I : forallb (fun n => match quiet_acts !! n with Some a => match call_of a with Some _ => forallb (fun r => match r with Missed _ | Made _ _ => false | _ => true end) (os_reqs (ask_run (take n quiet_acts))) | None => true end | None => true end) (seq 0 (length quiet_acts)) = true) by (vm_compute; reflexivity).
    rewrite forallb_forall in I. assert (Ln : (length pre < length quiet_acts)%nat) by (rewrite E, app_length; cbn; lia). specialize (I (length pre)). rewrite in_seq in I. specialize (I ltac:(lia)).
    assert (Ea : quiet_acts !! length pre = Some a) by (rewrite E; apply list_lookup_middle; done). rewrite Ea, Hc in I. replace (take (length pre) quiet_acts) with pre in I by (rewrite E; by rewrite take_app).
    rewrite forallb_forall in I. intros k r Hr. specialize (I r). apply elem_of_list_lookup_2, elem_of_list_In in Hr. specialize (I Hr). by destruct r.
Qed.

(** A kind is registered while a request is generating: the request then stores what is no
    longer true, and all later requests get it, until the next registration.  The kind is
    served and discovered meanwhile. *)
Definition racing_acts : list oact := [OAsk V2; OStep 0; OStep 0; ORegister og [vk "op" "Route"]; OStep 0] ++ ask 1 V2.
Theorem C66_stale_refuted : current (calls_in racing_acts) (vk "op" "Route") /\ served_by (os_api (ask_run racing_acts)) og "v1alpha1" "route" (vk "op" "Route")
  /\ discover_version (os_api (ask_run racing_acts)) og "v1alpha1" = Some [("route"%string, vk "op" "Route")]
  /\ told (ask_run racing_acts) = Some [("io.k8s.api.core.v1.Pod", "Pod")]%string
  /\ told (ask_run (racing_acts ++ ask 2 V2)) = Some [("io.k8s.api.core.v1.Pod", "Pod")]%string
  /\ told (ask_run (racing_acts ++ ask 2 V3)) = Some [("io.k8s.api.core.v1.Pod", "Pod"); ("op.view.dcontroller.io.v1alpha1.Route", "Route"); ("op.view.dcontroller.io/v1alpha1.RouteList", "RouteList")]%string.
Proof.
  split; [exists og; split; [by exists "op."%string|vm_compute; left]|]. split_and!; vm_compute; reflexivity.
Qed.
Print Assumptions C66_stale_refuted.

(** Two kinds of different operators whose definitions have the same name: only one of
    them is described. *)
(** (The four definitions are those of the pod, of one of the kinds and of two lists.) *)
Definition dotted : gvk := vk "a" "b.view.dcontroller.io.v1alpha1.Route".
Definition dotty : gvk := vk "a.view.dcontroller.io.v1alpha1.b" "Route".
Theorem C66_dots_refuted : def_name dotted = def_name dotty
  /\ let l := [ORegister (gvk_group dotted) [dotted]; ORegister (gvk_group dotty) [dotty]] in
     served_by (os_api (ask_run l)) (gvk_group dotted) "v1alpha1" (lower (gvk_kind dotted)) dotted /\ served_by (os_api (ask_run l)) (gvk_group dotty) "v1alpha1" "route" dotty
     /\ length <$> told (ask_run (l ++ ask 0 V2)) = Some 4%nat.
Proof. split; [vm_compute; reflexivity|]. cbn zeta. split_and!; vm_compute; reflexivity. Qed.
Print Assumptions C66_dots_refuted.

(** The common definitions know the metadata of lists under one name.  The definitions
    made here use two names for it, so that whatever the name, some definition depends on
    one that is not there. *)
Theorem C66_metadata_refuted : forall base iter k r x, iterates iter -> (exists g l, r !! g = Some l /\ x ∈ l) -> (forall x, (exists g l, r !! g = Some l /\ x ∈ l) -> viewish x) ->
  (base !! "k8s.io.apimachinery.pkg.apis.meta.v1.ListMeta"%string = None \/ base !! "k8s.io/apimachinery/pkg/apis/meta/v1.ListMeta"%string = None) ->
  exists n D m, generate base iter k r !! n = Some D /\ m ∈ od_needs D /\ generate base iter k r !! m = None.
Proof.
  intros base iter k r x Hi Hx Hv Hb.
  assert (Hno : forall m, base !! m = None -> m <> unstruct_name -> m <> unstruct_list_name -> (forall y, viewish y -> def_name y <> m /\ list_def_name y <> m) -> generate base iter k r !! m = None).
  { intros m Hm N1 N2 N3. destruct (generate base iter k r !! m) as [D|] eqn:E; [|done]. exfalso. unfold generate in E. rewrite set_defs_app in E. apply set_defs_from in E as [E|E].
    - apply (elem_defs iter Hi r k Hv) in E as (y & Hy & [[E _]|[E _]]); destruct (N3 y (Hv y Hy)); congruence.
    - apply set_defs_from in E as [E|E]; [|congruence]. apply elem_of_cons in E as [[= -> _]|E]; [done|]. apply elem_of_list_singleton in E as [= -> _]. done. }
  destruct Hb as [Hb|Hb].
  - exists (list_def_name x), (gen_list_def x), "k8s.io.apimachinery.pkg.apis.meta.v1.ListMeta"%string. split; [by apply gen_has_list|]. split; [cbn; left|]. apply Hno; [done..|]. intros y Hy.
    apply (name_apart y "k8s.io.apimachinery.pkg.apis.meta.v1" "ListMeta" Hy); [by repeat split|vm_compute; discriminate..].
  - exists unstruct_list_name, gen_unstruct_list, "k8s.io/apimachinery/pkg/apis/meta/v1.ListMeta"%string. split; [|split; [cbn; left|]].
    + unfold generate. rewrite set_defs_app. destruct (set_defs_keeps (concat (map defs_of (iter k r))) (set_defs base [(unstruct_name, gen_unstruct); (unstruct_list_name, gen_unstruct_list)]) unstruct_list_name gen_unstruct_list) as [E|(D & E & _)]; [apply lookup_insert|done|].
      exfalso. apply (elem_defs iter Hi r k Hv) in E as (y & Hy & E). destruct (name_apart y "k8s.io/apimachinery/pkg/apis/meta/v1/unstructured" "UnstructuredList" (Hv y Hy)) as [A1 A2]; [by repeat split|vm_compute; discriminate..|].
      destruct E as [[E _]|[E _]]; symmetry in E; done.
    + apply Hno; [done..|]. intros y Hy. apply (name_apart y "k8s.io/apimachinery/pkg/apis/meta/v1" "ListMeta" Hy); [by repeat split|vm_compute; discriminate..].
Qed.
Print Assumptions C66_metadata_refuted.
Example ex_C66_metadata : let r := <[og := [vk "op" "Route"]]> (∅ : gmap string (list gvk)) in iterates any_order /\ (exists g l, r !! g = Some l /\ vk "op" "Route" ∈ l)
  /\ (forall x, (exists g l, r !! g = Some l /\ x ∈ l) -> viewish x) /\ (∅ : odefs) !! "k8s.io.apimachinery.pkg.apis.meta.v1.ListMeta"%string = None.
Proof.
  split; [exact any_order_ok|]. split; [exists og, [vk "op" "Route"]; split; [apply lookup_insert|left]|]. split; [|done].
  intros x (g & l & Hl & Hx). apply lookup_insert_Some in Hl as [[_ <-]|[_ Hl]]; [|by rewrite lookup_empty in Hl]. apply elem_of_list_singleton in Hx as ->.
  split; [by exists "op."%string|]. split; [done|]. by repeat split.
Qed.
