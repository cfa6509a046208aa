(** Model of the discovery of views (pkg/cache/view_discovery.go), of the composite
    discovery client (pkg/cache/discovery.go), of the REST mappers
    (pkg/cache/view_restmapper.go, restmapper.go) and of the composite cache and client
    (pkg/cache/composite.go, client.go).

    What belongs to Kubernetes (the native discovery client, REST mapper, cache and
    client) is an argument.  A Go [range] over a map visits the entries in any order: the
    list of entries is an argument, or an [ord] turns the entries into the order in which
    they are visited.  Errors are [None].  strings.ToLower is [lower], on ASCII letters
    only.  Not modelled: ServerVersion, OpenAPISchema, OpenAPIV3 and RESTClient, which are
    passed on to the native client. *)
From Verif Require Export ViewModel.
From Verif Require RegistryModel.
Notation lower := RegistryModel.lower.

(** *** view_discovery.go *)

(** metav1.APIResource (258-267) *)
Record api_resource := ApiResource {
  ar_name : string; ar_singular : string; ar_namespaced : bool; ar_kind : string; ar_group : string; ar_version : string; ar_verbs : list string }.
(** view_discovery.go:38-41: the registered kinds. *)
Notation disco := (gmap gvk api_resource).
Definition disco0 : disco := ∅.
(** view_discovery.go:217-223 ResourceFromKind *)
Definition resource_from_kind (kind : string) : string := lower (trim_suffix "List" kind).
(** view_discovery.go:245-271 RegisterViewGVK *)
Definition register_view (d : disco) (x : gvk) : disco :=
  if is_object_kind x then
    match d !! x with
    | Some _ => d
    | None => <[x := ApiResource (resource_from_kind (gvk_kind x)) (resource_from_kind (gvk_kind x)) true (gvk_kind x) (gvk_group x) (gvk_version x)
                       ["get"; "list"; "create"; "update"; "patch"; "delete"; "watch"]%string]> d
    end
  else d.
(** view_discovery.go:274-280 UnregisterViewGVK *)
Definition unregister_view (d : disco) (x : gvk) : disco := delete x d.
Inductive dact := Register (x : gvk) | Unregister (x : gvk).
Definition dstep (d : disco) (a : dact) : disco := match a with Register x => register_view d x | Unregister x => unregister_view d x end.
Definition drun (l : list dact) : disco := foldl dstep disco0 l.

(** The entries as a range over the map visits them. *)
Notation entries := (list (gvk * api_resource)).
(** view_discovery.go:283-293 GetRegisteredViewGVKs *)
Definition registered_gvks (es : entries) : list gvk := map fst es.
Definition same_gv (g v : string) (x : gvk) : bool := String.eqb (gvk_group x) g && String.eqb (gvk_version x) v.
(** view_discovery.go:51-71 ServerResourcesForGroupVersion *)
Definition view_resources (es : entries) (gv : string) : option (list api_resource) :=
  match parse_gv gv with
  | Some (g, v) => Some (map snd (List.filter (fun e => same_gv g v e.1) es))
  | None => None
  end.

(** metav1.APIGroup: versions are pairs of group version and version. *)
Record api_group := ApiGroup { ag_name : string; ag_versions : list (string * string); ag_preferred : string * string }.
(** view_discovery.go:78-97: the versions of each group.  The inner loop (86-91) only
    continues itself, so the version is appended whether it is there or not. *)
Definition add_version (m : gmap string (list (string * string))) (x : gvk) : gmap string (list (string * string)) :=
  <[gvk_group x := default [] (m !! gvk_group x) ++ [(gv_string (gvk_group x) (gvk_version x), gvk_version x)]]> m.
(** view_discovery.go:106-115: the first one with version v1alpha1, or the first one. *)
Definition preferred (vs : list (string * string)) : string * string :=
  match List.find (fun v => String.eqb v.2 view_version) vs, vs with
  | Some v, _ => v
  | None, v :: _ => v
  | None, [] => (EmptyString, EmptyString)
  end.
(** view_discovery.go:74-121 ServerGroups *)
Definition view_groups (es : entries) (ord : list (string * list (string * string)) -> list (string * list (string * string))) : list api_group :=
  map (fun '(g, vs) => ApiGroup g vs (preferred vs)) (ord (map_to_list (foldl add_version ∅ (map fst es)))).
(** view_discovery.go:136-155, the resource lists of ServerGroupsAndResources, which are
    also ServerPreferredResources (159-165) and ServerPreferredNamespacedResources (169-172);
    [gvs] are the group versions as the range over their set visits them. *)
Definition gv_set (es : entries) : gset (string * string) := list_to_set (map (fun e => (gvk_group e.1, gvk_version e.1)) es).
Definition view_resource_lists (es : entries) (gvs : list (string * string)) : option (list (string * list api_resource)) :=
  foldr (fun gv acc =>
    match view_resources es (gv_string gv.1 gv.2), acc with
    | Some rs, Some ls => Some (if bool_decide (rs = []) then ls else (gv_string gv.1 gv.2, rs) :: ls)
    | _, _ => None
    end) (Some []) gvs.
(** view_discovery.go:226-242 KindFromResource *)
Definition kind_from_resource (es : entries) (resource : string) : option string :=
  gvk_kind ∘ fst <$> List.find (fun e => String.eqb (ar_name e.2) resource || String.eqb (ar_singular e.2) resource || String.eqb (lower (gvk_kind e.1)) resource) es.

(** *** discovery.go *)

(** The native discovery client, if there is one: its answers. *)
Record native_disco := NativeDisco {
  nd_resources : string -> option (list api_resource);
  nd_groups : option (list api_group) }.
(** discovery.go:44-59 ServerResourcesForGroupVersion *)
Definition comp_resources (es : entries) (n : option native_disco) (gv : string) : option (list api_resource) :=
  match parse_gv gv with
  | None => None
  | Some (g, _) => if is_view_group g then view_resources es gv else match n with Some n => nd_resources n gv | None => None end
  end.
(** discovery.go:63-83 ServerGroups *)
Definition comp_groups (es : entries) (ord : list (string * list (string * string)) -> list (string * list (string * string))) (n : option native_disco) : option (list api_group) :=
  match n with
  | None => Some (view_groups es ord)
  | Some n => match nd_groups n with Some gs => Some (view_groups es ord ++ gs) | None => None end
  end.

(** *** view_restmapper.go and restmapper.go *)

Notation gvres := (string * string * string)%type.   (* group, version, resource *)
(** strings.Title: the first letter becomes upper case (simplified: so do letters after
    other characters). *)
Definition upper_char (c : ascii) : ascii := if byte_in 97 122 c then ascii_of_N (N_of_ascii c - 32) else c.
Definition title (s : string) : string := match s with EmptyString => EmptyString | String c s => String (upper_char c) s end.
(** view_restmapper.go:24-37 KindFor (and 40-46 KindsFor) *)
Definition view_kind_for (r : gvres) : option gvk :=
  if is_view_group r.1.1 then None else Some (GVK r.1.1 r.1.2 (title (lower r.2))).
(** view_restmapper.go:49-60 ResourceFor (and 63-69 ResourcesFor) *)
Definition view_resource_for (r : gvres) : option gvres :=
  if is_view_group r.1.1 then None else Some (r.1.1, r.1.2, lower r.2).
(** view_restmapper.go:72-100 RESTMapping (and 103-109 RESTMappings): kind and resource;
    the scope is the namespace. *)
Definition view_mapping (group kind : string) (versions : list string) : option (gvk * gvres) :=
  if is_view_group group then None else
  let v := match versions with v :: _ => if decide (v = EmptyString) then view_version else v | [] => view_version end in
  Some (GVK group v kind, (group, v, lower kind)).
(** The native mapper, if one could be made (restmapper.go:28-32). *)
Record native_mapper := NativeMapper {
  nm_kind : gvres -> option gvk; nm_resource : gvres -> option gvres; nm_mapping : string -> string -> list string -> option (gvk * gvres) }.
(** restmapper.go:138-144 isViewGroup, for the discovery client that api.go:67-70 passes. *)
(** restmapper.go:45-55 KindFor (and 58-69 KindsFor) *)
Definition comp_kind_for (n : option native_mapper) (r : gvres) : option gvk :=
  if is_view_group r.1.1 then view_kind_for r else match n with Some n => nm_kind n r | None => None end.
(** restmapper.go:71-81 ResourceFor (and 84-94 ResourcesFor) *)
Definition comp_resource_for (n : option native_mapper) (r : gvres) : option gvres :=
  if is_view_group r.1.1 then view_resource_for r else match n with Some n => nm_resource n r | None => None end.
(** restmapper.go:97-107 RESTMapping (and 110-120 RESTMappings) *)
Definition comp_mapping (n : option native_mapper) (group kind : string) (versions : list string) : option (gvk * gvres) :=
  if is_view_group group then view_mapping group kind versions else match n with Some n => nm_mapping n group kind versions | None => None end.

(** *** composite.go and client.go *)

(** The calls of a client: writes, sub-resource writes through Status() and reads. *)
Inductive ccall :=
  | CWrite (o : vop)             (* Create, Update, Patch, Delete, DeleteAllOf *)
  | CStatus (o : vop)            (* Status().Update and Status().Create, [VSubUpdate] and [VSubCreate] *)
  | CGet (x : gvk) (ns name : string)
  | CList (x : gvk) (s : selection)
  | CWatch (x : gvk).
(** What a call returns: the result of a write, what was read, a started watch, what the
    native client or cache returned, an error of the composite client, a panic. *)
Inductive canswer (R : Type) :=
  | AWrite (r : vresult) | AGet (m : option jobj) | AList (l : list jobj) | AWatch | ANative (r : R) | ANoWatch | APanic.
Arguments AWrite {R}. Arguments AGet {R}. Arguments AList {R}. Arguments AWatch {R}. Arguments ANative {R}. Arguments ANoWatch {R}. Arguments APanic {R}.

Section client.
Variable hash : string -> string.
Variable lister : store -> list jobj.
(** The Kubernetes side: a state, the effect of a call on it and the answer. *)
Variables (N R : Type) (native : N -> ccall -> N * R).

(** The kind by which a write is routed (client.go:84-122, 170-188): that of the object,
    but of the sub-resource in Status().Create. *)
Definition op_gvk (o : vop) : gvk :=
  match o with
  | VCreate m | VUpdate m | VPatch m _ | VDelete m | VDeleteAll m _ | VSubUpdate _ m => get_gvk m
  | VSubCreate _ _ s => get_gvk s
  end.
(** The kind by which a call is routed (composite.go:153-174 for reads). *)
Definition call_gvk (c : ccall) : gvk := match c with CWrite o | CStatus o => op_gvk o | CGet x _ _ => x | CList x _ => x | CWatch x => x end.
(** client.go:20-25 CompositeClient and composite.go:19-23 CompositeCache: the views and the
    Kubernetes side, [None] without a configuration (composite.go:44-51, client.go:31-37). *)
Record comp := Comp { cc_views : caches; cc_native : option N }.
(** A call on the Kubernetes side; without one the interface is nil. *)
Definition to_native (s : comp) (c : ccall) : comp * canswer R :=
  match cc_native s with
  | Some n => let '(n', r) := native n c in (Comp (cc_views s) (Some n'), ANative r)
  | None => (s, APanic)
  end.
Definition cstep (s : comp) (c : ccall) : comp * canswer R :=
  match c with
  | CWrite o =>
      if is_view_kind (op_gvk o) then let '(v, _, r) := vstep hash lister (cc_views s) o in (Comp v (cc_native s), AWrite r) else to_native s c
  | CStatus o =>
      (** client.go:145-150: Status() also asks the native client for its writer. *)
      match cc_native s with
      | None => (s, APanic)
      | Some _ => if is_view_kind (op_gvk o) then let '(v, _, r) := vstep hash lister (cc_views s) o in (Comp v (cc_native s), AWrite r) else to_native s c
      end
  | CGet x ns name => if is_view_kind x then (s, AGet (vc_get (cc_views s) x ns name)) else to_native s c
  | CList x sel => if is_view_kind x then (s, AList (vc_list lister (cc_views s) x sel)) else to_native s c
  | CWatch x => (s, if is_view_kind x then AWatch else ANoWatch)
  end.
Fixpoint crun (s : comp) (l : list ccall) : comp * list (canswer R) :=
  match l with
  | [] => (s, [])
  | c :: l => let '(s1, a) := cstep s c in let '(s2, r) := crun s1 l in (s2, a :: r)
  end.
End client.
Arguments Comp {N}. Arguments cc_views {N}. Arguments cc_native {N}.
