(** Model of the dynamic registration of view kinds with the extension API
    server: pkg/apiserver/registry.go, resource.go, resource_handler.go and
    dynamic_discovery.go.

    Simplifications:
    - A storage ([ClientDelegatedStorage] and its request scope) is the kind it
      serves.
    - APIServer.mu makes each call atomic with respect to other calls, and each
      swap of the storage map is atomic for requests, so an execution is a
      sequence of calls with requests in between.
    - Logging and the http machinery are left out; the OpenAPI caches are in
      OpenModel.v. *)
From Verif Require Export GroupModel PipelineModel.

(** strings.ToLower (Go standard library), on ASCII letters only. *)
Definition lower_char (c : ascii) : ascii := if byte_in 65 90 c then ascii_of_N (N_of_ascii c + 32) else c.
Fixpoint lower (s : string) : string :=
  match s with EmptyString => EmptyString | String c s => String (lower_char c) (lower s) end.

(** group, version, resource *)
Definition gvr : Type := string * string * string.

(** The Go type registered for a kind: Unstructured, UnstructuredList or one of
    the types of k8s.io/apimachinery/pkg/apis/meta/v1. *)
Inductive stype := TObject | TList | TMeta (name : string).
#[global] Instance stype_eq : EqDecision stype.
Proof. solve_decision. Defined.

(** apiserver.go:44-80 APIServer, the parts a registration changes.  [scheme] is
    runtime.Scheme's gvkToType, [storage] resourceHandler.storage, [groups] the
    versions listed by dynamicGroupHandler and by the legacy discovery manager,
    [versions] the resources listed by dynamicVersionHandler, [aggregated] those
    listed by the aggregated discovery manager, [registered] groupGVKs (a set,
    kept as a list). *)
Record apiserver := APIServer {
  scheme : gmap gvk stype;
  storage : gmap gvr gvk;
  groups : gmap string (list string);
  versions : gmap string (list (string * gvk));
  aggregated : gmap string (gmap string (list (string * gvk)));
  registered : gmap string (list gvk) }.
(** apiserver.go:86-110 NewAPIServer *)
Definition api_new : apiserver := APIServer ∅ ∅ ∅ ∅ ∅ ∅.

(** The outcome of a call: done, an error, a run-time panic. *)
Inductive outcome := Done | Failed | Panicked.
#[global] Instance outcome_eq : EqDecision outcome.
Proof. solve_decision. Defined.

(** resource.go:24-46 findAPIResource: the resource name, or an error for what is
    not a view kind. *)
Definition find_resource (x : gvk) : option string :=
  if is_view_kind x then Some (lower (gvk_kind x)) else None.
(** resource.go:49-55 listGVK *)
Definition list_gvk (x : gvk) : gvk := GVK (gvk_group x) (gvk_version x) (gvk_kind x +:+ "List").
(** registry.go:73-77 and 119-123 *)
Definition gvr_of (x : gvk) (r : string) : gvr := (gvk_group x, gvk_version x, r).

(** runtime.Scheme.AddKnownTypeWithName (apimachinery, recalled): it panics
    without a version and when the kind is known with another Go type.  The flag
    says whether it returned. *)
Definition add_type (s : gmap gvk stype) (x : gvk) (t : stype) : gmap gvk stype * bool :=
  if decide (gvk_version x = EmptyString) then (s, false)
  else match s !! x with
       | Some t' => (s, bool_decide (t = t'))
       | None => (<[x := t]> s, true)
       end.
Fixpoint add_types (s : gmap gvk stype) (l : list (gvk * stype)) : gmap gvk stype * bool :=
  match l with
  | [] => (s, true)
  | (x, t) :: l => let '(s, ok) := add_type s x t in if ok then add_types s l else (s, false)
  end.
(** metav1.AddToGroupVersion (apimachinery, recalled) *)
Definition meta_kinds : list string :=
  ["WatchEvent"; "ListOptions"; "GetOptions"; "DeleteOptions"; "CreateOptions"; "UpdateOptions"; "PatchOptions"].
Definition meta_types (group version : string) : list (gvk * stype) :=
  (GVK group "__internal" "WatchEvent", TMeta "InternalEvent") :: map (fun k => (GVK group version k, TMeta k)) meta_kinds.
(** registry.go:236-264 addTypesToScheme.  Go goes through the group-versions in
    map order, here the order is that of the list; only the point of a panic
    depends on it.  SetVersionPriority fails for the internal version only, where
    AddToGroupVersion has panicked before. *)
Definition types_of (x : gvk) : list (gvk * stype) :=
  meta_types (gvk_group x) (gvk_version x) ++ [(x, TObject); (list_gvk x, TList)].
Definition add_types_to_scheme (s : gmap gvk stype) (l : list gvk) : gmap gvk stype * bool :=
  add_types s (concat (map types_of l)).

Section registry.
(** resource_handler.go:248-320 createServingInfo: whether it succeeds.  It needs
    a client that can watch and a field manager for the kind. *)
Variable servable : gvk -> bool.

(** registry.go:66-83 and resource_handler.go:200-225 addStorage: kinds that are
    not views are skipped, an error stops the loop. *)
Fixpoint add_storages (s : gmap gvr gvk) (l : list gvk) : gmap gvr gvk * bool :=
  match l with
  | [] => (s, true)
  | x :: l =>
      match find_resource x with
      | None => add_storages s l
      | Some r => if servable x then add_storages (<[gvr_of x r := x]> s) l else (s, false)
      end
  end.
(** resource_handler.go:228-246 removeStorage, for the kinds of a group
    (registry.go:113-126) *)
Fixpoint remove_storages (s : gmap gvr gvk) (l : list gvk) : gmap gvr gvk :=
  match l with
  | [] => s
  | x :: l => remove_storages (match find_resource x with None => s | Some r => delete (gvr_of x r) s end) l
  end.

(** dynamic_discovery.go:130-135, the key of a version handler *)
Definition version_key (group version : string) : string := group +:+ "/" +:+ version.
(** registry.go:154-170: the versions of the kinds; Go lists them in map order. *)
Definition versions_of (l : list gvk) : list string := remove_dups (map gvk_version l).
(** registry.go:195-218: the resources listed for one version *)
Definition listed (l : list gvk) (v : string) : list (string * gvk) :=
  omap (fun x => if decide (gvk_version x = v) then (fun r => (r, x)) <$> find_resource x else None) l.

(** registry.go:154-233 registerDiscoveryHandlers for a non-empty list of kinds.
    AddGroupVersion of the aggregated manager (apiserver, recalled) adds or
    replaces one version of the group. *)
Definition register_discovery (s : apiserver) (group : string) (l : list gvk) : apiserver :=
  let vs := versions_of l in
  APIServer (scheme s) (storage s) (<[group := vs]> (groups s))
    (foldr (fun v m => <[version_key group v := listed l v]> m) (versions s) vs)
    (<[group := foldr (fun v m => <[v := listed l v]> m) (default ∅ (aggregated s !! group)) vs]> (aggregated s))
    (registered s).

(** registry.go:52-101 RegisterAPIGroup.  Without kinds the index in line 178
    panics. *)
Definition register_group (s : apiserver) (group : string) (l : list gvk) : apiserver * outcome :=
  if negb (is_view_group group) then (s, Done)
  else
    let '(sch, ok) := add_types_to_scheme (scheme s) l in
    let s := APIServer sch (storage s) (groups s) (versions s) (aggregated s) (registered s) in
    if negb ok then (s, Panicked)
    else
      let '(st, ok) := add_storages (storage s) l in
      let s := APIServer (scheme s) st (groups s) (versions s) (aggregated s) (registered s) in
      if negb ok then (s, Failed)
      else match l with
           | [] => (s, Panicked)
           | _ =>
               let s := register_discovery s group l in
               (APIServer (scheme s) (storage s) (groups s) (versions s) (aggregated s) (<[group := l]> (registered s)), Done)
           end.

(** registry.go:104-150 UnregisterAPIGroup *)
Definition unregister_group (s : apiserver) (group : string) : apiserver :=
  match registered s !! group with
  | None => s
  | Some l =>
      APIServer (scheme s) (remove_storages (storage s) l) (delete group (groups s))
        (foldr (fun x m => delete (version_key (gvk_group x) (gvk_version x)) m) (versions s) l)
        (delete group (aggregated s)) (delete group (registered s))
  end.

Definition of_group (g : string) (l : list gvk) : list gvk := List.filter (fun x => String.eqb (gvk_group x) g) l.
(** registry.go:20-34 RegisterGVKs: [order] lists the groups of the kinds in the
    order in which Go goes through its map. *)
Fixpoint register_gvks (order : list string) (s : apiserver) (l : list gvk) : apiserver * outcome :=
  match order with
  | [] => (s, Done)
  | g :: order =>
      let '(s, o) := register_group s g (of_group g l) in
      match o with Done => register_gvks order s l | _ => (s, o) end
  end.
(** registry.go:37-47 UnregisterGVKs *)
Fixpoint unregister_gvks (order : list string) (s : apiserver) : apiserver :=
  match order with [] => s | g :: order => unregister_gvks order (unregister_group s g) end.
(** The groups of a list of kinds: the possible orders are its permutations. *)
Definition groups_of (l : list gvk) : list string := remove_dups (map gvk_group l).

Inductive rcall :=
  | RegisterGroup (group : string) (l : list gvk)
  | UnregisterGroup (group : string)
  | RegisterGVKs (order : list string) (l : list gvk)
  | UnregisterGVKs (order : list string) (l : list gvk).
Definition rstep (s : apiserver) (c : rcall) : apiserver * outcome :=
  match c with
  | RegisterGroup g l => register_group s g l
  | UnregisterGroup g => (unregister_group s g, Done)
  | RegisterGVKs o l => register_gvks o s l
  | UnregisterGVKs o l => (unregister_gvks o s, Done)
  end.
(** A history of calls; a call that fails or panics leaves its partial effects.
    The outcomes are listed. *)
Fixpoint rrun (s : apiserver) (cs : list rcall) : apiserver * list outcome :=
  match cs with
  | [] => (s, [])
  | c :: cs => let '(s, o) := rstep s c in let '(s, os) := rrun s cs in (s, o :: os)
  end.
End registry.

(** *** Requests *)

(** k8s.io/apiserver RequestInfo of a resource request *)
Record request := Request { q_group : string; q_version : string; q_resource : string; q_sub : string; q_verb : string }.
Inductive reply :=
  | Delegate (* to the next handler, which serves no views *)
  | Handle (x : gvk) (verb : string) (* by the storage of the kind *)
  | NotFound404
  | NotAllowed405.
Definition known_verbs : list string := ["get"; "list"; "watch"; "create"; "update"; "patch"; "delete"; "deletecollection"].
(** resource_handler.go:80-198 ServeHTTP and routeRequest *)
Definition serve_http (s : apiserver) (q : request) : reply :=
  if negb (is_view_group (q_group q)) then Delegate
  else match storage s !! (q_group q, q_version q, q_resource q) with
       | None => Delegate
       | Some x =>
           if decide (q_sub q <> EmptyString) then NotFound404
           else if decide (q_verb q ∈ known_verbs) then Handle x (q_verb q) else NotAllowed405
       end.
(** dynamic_discovery.go:34-63, 103-128: GET /apis/<group> and
    /apis/<group>/<version>; [None] is 404. *)
Definition discover_group (s : apiserver) (group : string) : option (list string) := groups s !! group.
Definition discover_version (s : apiserver) (group version : string) : option (list (string * gvk)) :=
  versions s !! version_key group version.
(** The aggregated discovery document (apiserver, recalled) *)
Definition discover_aggregated (s : apiserver) (group version : string) : option (list (string * gvk)) :=
  aggregated s !! group ≫= (fun m => m !! version).
