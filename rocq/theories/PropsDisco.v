(** Properties C58 (discovery of views) and C59 (views and Kubernetes objects are kept
    apart). *)
From Verif Require Import DiscoModel ZSetSpec OpsSpec GatherSpec ExecSpec JsonSpec CleanSpec PipelineSpec GroupSpec ValueSpec ViewSpec DiscoSpec.
From Verif Require Import JsonProofs ObjProofs GroupProofs ViewProofs ViewProofs2 DiscoProofs.
From Verif Require Import PropsView.

(** ** C58 *)

(** After any history of registrations exactly the view kinds that were registered and
    not unregistered since are listed, each of them once, whatever the order in which
    the map is visited. *)
Theorem C58_registered : forall l es, Permutation es (map_to_list (drun l)) ->
  NoDup (registered_gvks es) /\ forall x, In x (registered_gvks es) <-> is_object_kind x = true /\ kept x l.
Proof. intros l es H. split; [by apply (entry_nodup l)|]. intros x. by rewrite (gvks_in l es H). Qed.
Print Assumptions C58_registered.

(** The resources of a group version are exactly the kinds of that group version, each
    once. *)
Theorem C58_resources : forall l es g v, Permutation es (map_to_list (drun l)) -> has_slash g = false -> has_slash v = false ->
  exists rs, view_resources es (gv_string g v) = Some rs /\ NoDup (map ar_kind rs)
  /\ forall r, In r rs <-> exists kind, r = described (GVK g v kind) /\ offered (GVK g v kind) l.
Proof.
  intros l es g v H Hg Hv. destruct (view_resources es (gv_string g v)) as [rs|] eqn:E; [|unfold view_resources in E; by rewrite gv_noslash_parse in E]. exists rs. split; [done|].
  destruct (resources_in l es H g v rs Hg Hv E) as [N I]. split; [done|]. intros r. rewrite I. split.
  - intros (x & Ho & <- & <- & ->). exists (gvk_kind x). by destruct x.
  - intros (kind & -> & Ho). by exists (GVK g v kind).
Qed.
Print Assumptions C58_resources.

(** The lists of resources together have exactly the offered kinds, and one list for each
    group version. *)
Theorem C58_all_resources : forall l es gvs, Permutation es (map_to_list (drun l)) -> Permutation gvs (elements (gv_set es)) ->
  (forall x, offered x l -> has_slash (gvk_group x) = false) ->
  exists ls, view_resource_lists es gvs = Some ls /\ NoDup (map fst ls)
  /\ (forall gv rs, In (gv, rs) ls -> rs <> [] /\ NoDup (map ar_kind rs) /\ forall r, In r rs -> exists x, offered x l /\ gv = gv_string (gvk_group x) (gvk_version x) /\ r = described x)
  /\ (forall x, offered x l -> exists rs, In (gv_string (gvk_group x) (gvk_version x), rs) ls /\ In (described x) rs).
Proof.
  intros l es gvs H Hg P.
  assert (G : forall g v, In (g, v) gvs <-> exists x, offered x l /\ g = gvk_group x /\ v = gvk_version x).
  { intros g v. rewrite <- elem_of_list_In, Hg, elem_of_elements. unfold gv_set. rewrite elem_of_list_to_set, elem_of_list_In, in_map_iff. split.
    - intros ([x r] & E & Hin). apply (entry_in l es H) in Hin as [Ho _]. injection E as <- <-. by exists x.
    - intros (x & Ho & -> & ->). exists (x, described x). split; [done|]. by apply (entry_in l es H). }
  assert (S : forall gv, In gv gvs -> has_slash gv.1 = false /\ has_slash gv.2 = false).
  { intros [g v] Hin. apply G in Hin as (x & Ho & -> & ->). split; [by apply P|]. destruct (offered_version x l Ho) as [E _]. cbn. rewrite E. vm_compute. done. }
  destruct (lists_in es gvs S) as (ls & E & I). exists ls. split; [done|]. split; [apply (lists_nodup es gvs); [rewrite Hg; apply NoDup_elements|done..]|]. split.
  - intros gv rs Hin. apply I in Hin as (N & g & v & Hin & -> & Er). destruct (S _ Hin) as [S1 S2]. destruct (resources_in l es H g v rs S1 S2 Er) as [D J]. split; [done|]. split; [done|].
    intros r Hr. apply J in Hr as (x & Ho & <- & <- & ->). by exists x.
  - intros x Ho. assert (Hin : In (gvk_group x, gvk_version x) gvs) by (apply G; by exists x). destruct (S _ Hin) as [S1 S2]. cbn in S1, S2.
    destruct (view_resources es (gv_string (gvk_group x) (gvk_version x))) as [rs|] eqn:Er; [|unfold view_resources in Er; by rewrite gv_noslash_parse in Er].
    destruct (resources_in l es H _ _ rs S1 S2 Er) as [D J]. assert (Hr : In (described x) rs) by (apply J; by exists x). exists rs. split; [|done]. apply I. split; [by intros ->|].
    by exists (gvk_group x), (gvk_version x).
Qed.
Print Assumptions C58_all_resources.

(** The groups are exactly those that have an offered kind, each once; their version, also
    the preferred one, is that of views. *)
Theorem C58_groups_partial : forall l es ord, Permutation es (map_to_list (drun l)) -> (forall xs, Permutation (ord xs) xs) ->
  NoDup (map ag_name (view_groups es ord))
  /\ (forall g, In g (map ag_name (view_groups es ord)) <-> exists x, offered x l /\ gvk_group x = g)
  /\ (forall a, In a (view_groups es ord) -> ag_preferred a = (gv_string (ag_name a) view_version, view_version)
       /\ forall v, In v (ag_versions a) <-> v = (gv_string (ag_name a) view_version, view_version)).
Proof.
  intros l es ord H Hord. split; [by apply groups_names|].
  assert (F : forall g x, In x (List.filter (fun x => String.eqb (gvk_group x) g) (map fst es)) <-> offered x l /\ gvk_group x = g).
  { intros g x. rewrite filter_In, String.eqb_eq. by rewrite <- (gvks_in l es H). }
  split.
  - intros g. rewrite in_map_iff. split.
    + intros ([g' vs p] & <- & Hin). apply (groups_in es ord Hord) in Hin as (-> & -> & N). destruct (List.filter _ _) as [|x xs] eqn:E; [done|].
      assert (Hx : In x (x :: xs)) by by left. rewrite <- E in Hx. apply F in Hx. by exists x.
    + intros (x & Ho & <-). eexists (ApiGroup (gvk_group x) _ _). split; [done|]. apply (groups_in es ord Hord). split; [reflexivity|]. split; [reflexivity|].
      assert (Hx : In x (List.filter (fun y => String.eqb (gvk_group y) (gvk_group x)) (map fst es))) by (by apply F). by destruct (List.filter _ _).
  - intros [g vs p] Hin. apply (groups_in es ord Hord) in Hin as (-> & Ev & N). cbn [ag_name ag_versions ag_preferred].
    assert (All : forall v, In v vs -> v = (gv_string g view_version, view_version)).
    { intros v Hv. rewrite Ev in Hv. apply in_map_iff in Hv as (x & <- & Hx). apply F in Hx as [Ho <-]. by destruct (offered_version x l Ho) as [-> _]. }
    split; [by apply find_preferred|]. intros v. split; [apply All|]. intros ->. destruct vs as [|w vs]; [done|]. left. apply All. by left.
Qed.
Print Assumptions C58_groups_partial.

(** Refuted: a group with two kinds lists its version twice. *)
Theorem C58_groups_refuted : let es := map_to_list (drun [Register (view_gvk "op" "V"); Register (view_gvk "op" "W")]) in
  map ag_versions (view_groups es id) = [[("op.view.dcontroller.io/v1alpha1", "v1alpha1"); ("op.view.dcontroller.io/v1alpha1", "v1alpha1")]]%string.
Proof. vm_compute. reflexivity. Qed.
Print Assumptions C58_groups_refuted.

(** The kind of the resource of an offered kind is that kind, unless another offered kind
    differs from it in upper and lower case only; a resource that belongs to no offered
    kind has no kind. *)
Theorem C58_kind_of_resource_partial : forall l es, Permutation es (map_to_list (drun l)) ->
  (forall x, offered x l -> (forall y, offered y l -> lower (gvk_kind y) = lower (gvk_kind x) -> gvk_kind y = gvk_kind x) ->
     kind_from_resource es (resource_from_kind (gvk_kind x)) = Some (gvk_kind x)
     /\ kind_from_resource es (resource_from_kind (gvk_kind (list_gvk x))) = Some (gvk_kind x))
  /\ (forall r, (forall x, offered x l -> lower (gvk_kind x) <> r) -> kind_from_resource es r = None).
Proof.
  intros l es H. split.
  - intros x Ho U. assert (K : has_suffix "List" (gvk_kind x) = false) by (destruct Ho as [Ho _]; unfold is_object_kind in Ho; apply andb_true_iff in Ho as [_ Ho]; by destruct (has_suffix _ _)).
    assert (E : resource_from_kind (gvk_kind x) = lower (gvk_kind x)) by (unfold resource_from_kind; by rewrite trim_none).
    assert (E' : resource_from_kind (gvk_kind (list_gvk x)) = lower (gvk_kind x)).
    { destruct Ho as [Ho _]. unfold list_gvk. rewrite Ho. cbn [gvk_kind]. unfold resource_from_kind, trim_suffix. by rewrite has_suffix_app, prefix_of_app. }
    rewrite E, E'. assert (G : kind_from_resource es (lower (gvk_kind x)) = Some (gvk_kind x)); [|done].
    destruct (kind_found l es (lower (gvk_kind x)) H) as [[_ N]|(y & -> & Hy & El)]; [by destruct (N x Ho)|]. f_equal. by apply U.
  - intros r N. destruct (kind_found l es r H) as [[E _]|(y & _ & Hy & El)]; [done|]. by destruct (N y Hy).
Qed.
Print Assumptions C58_kind_of_resource_partial.

(** Refuted otherwise: the kind depends on the order in which the map is visited. *)
Theorem C58_kind_of_resource_refuted : let es := map_to_list (drun [Register (view_gvk "op" "MyView"); Register (view_gvk "op" "Myview")]) in
  Permutation (rev es) es /\ (kind_from_resource es "myview", kind_from_resource (rev es) "myview") ∈ [(Some "MyView", Some "Myview"); (Some "Myview", Some "MyView")]%string.
Proof. split; [symmetry; apply Permutation_rev|]. vm_compute. repeat constructor. Qed.
Print Assumptions C58_kind_of_resource_refuted.

(** Kinds of objects and kinds of lists correspond. *)
Theorem C58_list_kinds_partial : forall x,
  (is_object_kind x = true -> object_gvk (list_gvk x) = x /\ is_object_kind (list_gvk x) = false)
  /\ (is_view_kind x = true -> has_suffix "List" (gvk_kind x) = true -> is_object_kind (object_gvk x) = true -> list_gvk (object_gvk x) = x).
Proof.
  intros x. split.
  - intros H. assert (K : has_suffix "List" (gvk_kind x) = false) by (unfold is_object_kind in H; apply andb_true_iff in H as [_ H]; by destruct (has_suffix _ _)).
    split; [by apply object_list_gvk|]. unfold list_gvk. rewrite H. unfold is_object_kind. cbn [gvk_kind]. by rewrite has_suffix_app, andb_false_r.
  - intros V K. unfold object_gvk. rewrite V, K. cbn [andb]. intros H. unfold list_gvk. rewrite H. cbn [gvk_group gvk_version gvk_kind]. apply has_suffix_iff in K as [p E]. unfold trim_suffix.
    destruct x as [g v k]. cbn in *. subst k. by rewrite has_suffix_app, prefix_of_app.
Qed.
Print Assumptions C58_list_kinds_partial.
(** Refuted for kinds that end in List twice. *)
Theorem C58_list_kinds_refuted : let x := view_gvk "op" "VListList" in
  object_gvk x = view_gvk "op" "VList" /\ list_gvk (object_gvk x) = view_gvk "op" "VList".
Proof. vm_compute. done. Qed.
Print Assumptions C58_list_kinds_refuted.

(** Composite discovery asks the views about view groups and Kubernetes about all others;
    the groups are those of both. *)
Theorem C58_composite : forall es ord n g v, has_slash g = false -> has_slash v = false ->
  (is_view_group g = true -> comp_resources es n (gv_string g v) = view_resources es (gv_string g v))
  /\ (is_view_group g = false -> comp_resources es n (gv_string g v) = match n with Some n => nd_resources n (gv_string g v) | None => None end)
  /\ (forall gs, comp_groups es ord n = Some gs <-> exists native, match n with Some n => nd_groups n = Some native | None => native = [] end /\ gs = view_groups es ord ++ native).
Proof.
  intros es ord n g v Hg Hv. unfold comp_resources. rewrite gv_noslash_parse by done. split_and!; [by intros ->|by intros ->|]. intros gs. unfold comp_groups. destruct n as [n|].
  - destruct (nd_groups n) as [x|]; split; [intros [= <-]; by exists x|intros (y & [= <-] & ->); done|done|by intros (y & ? & _)].
  - split; [intros [= <-]; exists []; by rewrite app_nil_r|intros (y & -> & ->); by rewrite app_nil_r].
Qed.
Print Assumptions C58_composite.

(** Refuted for REST mappers: no view is ever mapped, whatever Kubernetes has, because the
    mapper of views refuses view groups. *)
Theorem C58_mapper_refuted : forall n g v r kind versions, is_view_group g = true ->
  comp_kind_for n (g, v, r) = None /\ comp_resource_for n (g, v, r) = None /\ comp_mapping n g kind versions = None.
Proof. intros n g v r kind versions H. unfold comp_kind_for, comp_resource_for, comp_mapping, view_kind_for, view_resource_for, view_mapping. cbn. by rewrite H. Qed.
Print Assumptions C58_mapper_refuted.
(** Other groups are mapped as by Kubernetes. *)
Theorem C58_mapper_native : forall n g v r kind versions, is_view_group g = false ->
  comp_kind_for (Some n) (g, v, r) = nm_kind n (g, v, r) /\ comp_resource_for (Some n) (g, v, r) = nm_resource n (g, v, r) /\ comp_mapping (Some n) g kind versions = nm_mapping n g kind versions.
Proof. intros n g v r kind versions H. unfold comp_kind_for, comp_resource_for, comp_mapping. cbn. by rewrite H. Qed.
Print Assumptions C58_mapper_native.
(** The mapper of views itself, which answers for all groups but those of views: a kind and
    its resource have the version that is asked for, and the kind of the resource is that
    kind if only its first letter is a capital. *)
Theorem C58_view_mapper_partial : forall g v kind, is_view_group g = false -> v <> EmptyString ->
  (forall vs, view_mapping g kind (v :: vs) = Some (GVK g v kind, (g, v, lower kind))) /\
  (forall r, view_resource_for (g, v, r) = Some (g, v, lower r)) /\
  (forall c s, kind = String c s -> (65 <= N_of_ascii c <= 90)%N -> lower s = s -> view_kind_for (g, v, lower kind) = Some (GVK g v kind)).
Proof.
  intros g v kind G V. unfold view_mapping, view_resource_for, view_kind_for. cbn [fst snd]. rewrite G, decide_False by done. split_and!; [done..|].
  intros c s -> [B1 B2] L. cbn [RegistryModel.lower]. rewrite !L. f_equal. f_equal. cbn [title]. f_equal.
  revert B1 B2. by destruct c as [[] [] [] [] [] [] [] []].
Qed.
Print Assumptions C58_view_mapper_partial.
Example ex_C58_view_mapper : is_view_group "apps" = false /\ lower "eployment" = "eployment"%string
  /\ view_kind_for ("apps", "v1", "deployment")%string = Some (GVK "apps" "v1" "Deployment") /\ view_kind_for ("apps", "v1", "replicaset")%string = Some (GVK "apps" "v1" "Replicaset").
Proof. vm_compute. done. Qed.

Example ex_C58 : let l := [Register (view_gvk "op" "V"); Register (view_gvk "op" "VList"); Register (GVK "apps" "v1" "Deployment"); Register (view_gvk "q" "W");
                           Unregister (view_gvk "op" "V"); Register (view_gvk "op" "V"); Unregister (view_gvk "q" "W")] in
  let es := map_to_list (drun l) in
  registered_gvks es = [view_gvk "op" "V"] /\ offered (view_gvk "op" "V") l /\ view_resources es "op.view.dcontroller.io/v1alpha1" = Some [described (view_gvk "op" "V")]
  /\ kind_from_resource es "v" = Some "V"%string /\ has_slash "op.view.dcontroller.io" = false.
Proof.
  intros l es. split_and!; try (vm_compute; reflexivity). split; [done|]. eexists (firstn 5 l), [Unregister (view_gvk "q" "W")]. split; [done|]. intros [H|[]]. discriminate.
Qed.

(** ** C59 *)

(** For a client with a Kubernetes side and any history of calls: the views are the
    result of the writes of views, Kubernetes has got the other calls and nothing else,
    and each side answers as if the calls about the other side had not been made. *)
Theorem C59_apart : forall hash lister N R (native : N -> ccall -> N * R) views n l,
  let '(s, answers) := crun hash lister N R native (Comp views (Some n)) l in
  cc_views s = (cache_run hash lister views (view_writes l)).1.1
  /\ cc_native s = Some (native_run native n (native_calls l))
  /\ (forall n', answers_to about_views l answers = (crun hash lister N R native (Comp views (Some n')) (List.filter about_views l)).2)
  /\ (forall views', answers_to about_others l answers = (crun hash lister N R native (Comp views' (Some n)) (List.filter about_others l)).2).
Proof.
  intros hash lister N R native views n l. destruct (crun hash lister N R native (Comp views (Some n)) l) as [s answers] eqn:E.
  assert (E1 : s = (crun hash lister N R native (Comp views (Some n)) l).1) by by rewrite E. assert (E2 : answers = (crun hash lister N R native (Comp views (Some n)) l).2) by by rewrite E.
  clear E. subst s answers. split_and!.
  - rewrite run_view_writes; [done|by eexists].
  - apply (run_native hash lister N R native l (Comp views (Some n)) n). done.
  - intros n'. apply (run_views hash lister N R native l (Comp views (Some n)) (Comp views (Some n'))); by eexists.
  - apply (run_native hash lister N R native l (Comp views (Some n)) n). done.
Qed.
Print Assumptions C59_apart.

(** So what a client reads of a view is the result of the writes of views before it, and
    nothing about views reaches Kubernetes. *)
Theorem C59_read_partial : forall hash lister N R (native : N -> ccall -> N * R) n l x ns name, lists_all lister -> Forall op_ok (view_writes l) -> is_view_kind x = true -> plain (ns, name) ->
  let s := (crun hash lister N R native (Comp ∅ (Some n)) l).1 in
  cstep hash lister N R native s (CGet x ns name) = (s, AGet ((ideal_run hash ∅ (view_writes l)).1 !! (x, (ns, name))))
  /\ Forall (fun c => is_view_kind (call_gvk c) = false) (native_calls l).
Proof.
  intros hash lister N R native n l x ns name Hl Ho V Hp s. split.
  - cbn [cstep]. rewrite V. f_equal. f_equal. unfold s. rewrite run_view_writes by by eexists. cbn [cc_views].
    assert (S := cache_run_sim hash lister Hl (view_writes l) ∅ ∅ (sim_empty hash) Ho). destruct (cache_run hash lister ∅ (view_writes l)) as [[c es] rs]. destruct (ideal_run hash ∅ (view_writes l)) as [w rs'].
    destruct S as (S & _). by eapply vc_get_sim.
  - apply Forall_forall. intros c H. unfold native_calls in H. apply elem_of_list_In, filter_In in H as [_ H]. apply andb_true_iff in H as [H _]. by apply negb_true_iff in H.
Qed.
Print Assumptions C59_read_partial.

(** Without a Kubernetes side views are served alike, except through Status(). *)
Theorem C59_headless_partial : forall hash lister N R (native : N -> ccall -> N * R) views n l, Forall (fun c => about_views c = true /\ is_status c = false) l ->
  (crun hash lister N R native (Comp views None) l).2 = (crun hash lister N R native (Comp views (Some n)) l).2
  /\ cc_views (crun hash lister N R native (Comp views None) l).1 = cc_views (crun hash lister N R native (Comp views (Some n)) l).1.
Proof. intros hash lister N R native views n l F. apply run_headless; done. Qed.
Print Assumptions C59_headless_partial.

(** Refuted: the status writer panics for views too, and so does every call about an object
    of Kubernetes. *)
Theorem C59_headless_refuted : forall hash lister N R (native : N -> ccall -> N * R) views,
  (forall o, cstep hash lister N R native (Comp views None) (CStatus o) = (Comp views None, APanic))
  /\ (forall c, about_views c = false -> (forall x, c <> CWatch x) -> cstep hash lister N R native (Comp views None) c = (Comp views None, APanic)).
Proof.
  intros hash lister N R native views. split; [done|]. intros c V W. unfold about_views, call_gvk in V. destruct c as [o|o|x ns name|x sel|x]; cbn [cstep cc_native]; rewrite ?V; try done. by destruct (W x).
Qed.
Print Assumptions C59_headless_refuted.

(** Refuted: a sub-resource of a view with a kind of its own, such as Scale, is created in
    Kubernetes, not in the view. *)
Theorem C59_subresource_refuted : forall hash lister N R (native : N -> ccall -> N * R) views n m s, is_view_kind (get_gvk s) = false ->
  let c := CStatus (VSubCreate "status" m s) in
  cstep hash lister N R native (Comp views (Some n)) c = (Comp views (Some (native n c).1), ANative (native n c).2).
Proof. intros hash lister N R native views n m s H c. subst c. cbn [cstep cc_native op_gvk]. rewrite H. unfold to_native. cbn [cc_native]. by destruct (native n _). Qed.
Print Assumptions C59_subresource_refuted.

(** A Kubernetes side that counts its calls. *)
Definition counting (n : nat) (c : ccall) : nat * nat := (S n, n).
Definition pod : jobj := [("apiVersion"%string, JStr "v1"); ("kind"%string, JStr "Pod"); ("metadata"%string, JMap [("name"%string, JStr "p")])].
Example ex_C59 : let l := [CWrite (VCreate pod); CWrite (VCreate (view "V" "n" "a" "x")); CGet (GVK "" "v1" "Pod") "" "p"; CStatus (VSubUpdate "status" (view "V" "n" "a" "y")); CGet v_gvk "n" "a"; CWatch (GVK "" "v1" "Pod")] in
  (crun id_hash any_order nat nat counting (Comp ∅ (Some 0%nat)) l).2
  = [ANative 0%nat; AWrite VOk; ANative 1%nat; AWrite VOk; AGet (Some (view "V" "n" "a" "y")); ANoWatch]
  /\ Forall op_ok (view_writes l) /\ (crun id_hash any_order nat nat counting (Comp ∅ None) (List.filter about_views (firstn 3 l))).2 = [AWrite VOk].
Proof.
  intros l. split_and!; [vm_compute; reflexivity| |vm_compute; reflexivity]. repeat constructor; try apply own_v; try done.
Qed.
