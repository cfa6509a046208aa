(** Model of the OpenAPI definitions of the extension API server:
    pkg/apiserver/openapi.go and the invalidation of its caches in registry.go.

    Simplifications:
    - A definition is reduced to its description, the kind it is for, the names of the
      definitions it refers to, and whether unknown fields are kept.
    - Taking APIServer.mu makes each registration one step and each of the three parts
      of a request one step: reading the cache, generating, storing.  (The store takes
      the read lock only, but it is a single word.)
    - The Kubernetes machinery that calls the handlers is left out. *)
From Verif Require Export RegistryModel.

(** kube-openapi's OpenAPIDefinition, the parts used below.  [od_gvk] is
    x-kubernetes-group-version-kind, [od_items] what the items of a list refer to,
    [od_needs] the dependencies. *)
Record odef := ODef { od_text : string; od_gvk : option gvk; od_items : option string; od_needs : list string; od_keeps : bool }.
Notation odefs := (gmap string odef).

(** openapi.go:49-53 *)
Definition unstruct_name : string := "k8s.io/apimachinery/pkg/apis/meta/v1/unstructured.Unstructured".
Definition unstruct_list_name : string := "k8s.io/apimachinery/pkg/apis/meta/v1/unstructured.UnstructuredList".
(** openapi.go:61 *)
Definition def_name (x : gvk) : string := gvk_group x +:+ "." +:+ gvk_version x +:+ "." +:+ gvk_kind x.
(** openapi.go:65 *)
Definition list_def_name (x : gvk) : string := gvk_group x +:+ "/" +:+ gvk_version x +:+ "." +:+ gvk_kind (list_gvk x).
(** openapi.go:97-147 genOpenAPIDef *)
Definition gen_def (x : gvk) : odef :=
  ODef ("Generic " +:+ gvk_kind x +:+ " view resource") (Some x) None ["k8s.io.apimachinery.pkg.apis.meta.v1.ObjectMeta"%string] true.
(** openapi.go:150-205 genOpenAPIListDef *)
Definition gen_list_def (x : gvk) : odef :=
  ODef ("List of " +:+ gvk_kind x +:+ " view resources.") (Some (list_gvk x)) (Some (def_name x))
    ["k8s.io.apimachinery.pkg.apis.meta.v1.ListMeta"%string; def_name x] false.
(** openapi.go:208-227 genOpenAPIUnstructDef *)
Definition gen_unstruct : odef :=
  ODef "Unstructured allows objects that do not have Golang structs registered to be manipulated dynamically." None None [] true.
(** openapi.go:230-278 genOpenAPIUnstructListDef *)
Definition gen_unstruct_list : odef :=
  ODef "UnstructuredList allows lists of objects that do not have Golang structs registered to be manipulated dynamically." None (Some unstruct_name)
    ["k8s.io/apimachinery/pkg/apis/meta/v1.ListMeta"%string; unstruct_name] false.

(** openapi.go:55-68: the definitions for one kind, in the order in which they are set *)
Definition defs_of (x : gvk) : list (string * odef) :=
  if is_view_kind x then [(def_name x, gen_def x); (list_def_name x, gen_list_def x)] else [].
Definition set_defs (d : odefs) (l : list (string * odef)) : odefs := foldl (fun d e => <[e.1 := e.2]> d) d l.

Section open.
Variable servable : gvk -> bool.
(** generatedopenapi.GetOpenAPIDefinitions *)
Variable base : odefs.
(** The order in which Go goes through groupGVKs, which may differ from request to
    request *)
Variable iter : nat -> gmap string (list gvk) -> list gvk.

(** openapi.go:39-71 generateOpenAPIDefs *)
Definition generate (k : nat) (r : gmap string (list gvk)) : odefs :=
  set_defs base ([(unstruct_name, gen_unstruct); (unstruct_list_name, gen_unstruct_list)] ++ concat (map defs_of (iter k r))).

(** OpenAPI v2 or v3 *)
Inductive oversion := V2 | V3.
(** openapi.go:15-36 and 74-94: where a request is: it has come in, it has found no
    cached definitions, it has generated some, it has been answered *)
Inductive oreq := Asked (v : oversion) | Missed (v : oversion) | Made (v : oversion) (d : odefs) | Answered (d : odefs).
(** apiserver.go:62-63 cachedOpenAPIDefs, cachedOpenAPIV3Defs; [None] is nil *)
Record oserver := OServer { os_api : apiserver; os_v2 : option odefs; os_v3 : option odefs; os_reqs : list oreq }.
Definition open_new : oserver := OServer api_new None None [].
Definition cached (v : oversion) (s : oserver) : option odefs := match v with V2 => os_v2 s | V3 => os_v3 s end.
Definition store (v : oversion) (d : odefs) (s : oserver) : oserver :=
  match v with V2 => OServer (os_api s) (Some d) (os_v3 s) (os_reqs s) | V3 => OServer (os_api s) (os_v2 s) (Some d) (os_reqs s) end.

Inductive oact :=
  | ORegister (group : string) (l : list gvk)
  | OUnregister (group : string)
  | OAsk (v : oversion)
  | OStep (k : nat).
(** registry.go:52-101 RegisterAPIGroup and its effect on the caches: they are dropped at
    the end, so neither an error nor a panic drops them. *)
Definition open_register (s : oserver) (g : string) (l : list gvk) : oserver :=
  match register_group servable (os_api s) g l with
  | (a, Done) => if is_view_group g then OServer a None None (os_reqs s) else OServer a (os_v2 s) (os_v3 s) (os_reqs s)
  | (a, _) => OServer a (os_v2 s) (os_v3 s) (os_reqs s)
  end.
(** registry.go:104-150 UnregisterAPIGroup *)
Definition open_unregister (s : oserver) (g : string) : oserver :=
  match registered (os_api s) !! g with
  | None => s
  | Some _ => OServer (unregister_group (os_api s) g) None None (os_reqs s)
  end.
(** The next step of request [k] *)
Definition req_step (s : oserver) (k : nat) : oserver :=
  let at_ r s := OServer (os_api s) (os_v2 s) (os_v3 s) (<[k := r]> (os_reqs s)) in
  match os_reqs s !! k with
  | Some (Asked v) => at_ (match cached v s with Some d => Answered d | None => Missed v end) s
  | Some (Missed v) => at_ (Made v (generate k (registered (os_api s)))) s
  | Some (Made v d) => at_ (Answered d) (store v d s)
  | Some (Answered _) | None => s
  end.
Definition open_step (s : oserver) (a : oact) : oserver :=
  match a with
  | ORegister g l => open_register s g l
  | OUnregister g => open_unregister s g
  | OAsk v => OServer (os_api s) (os_v2 s) (os_v3 s) (os_reqs s ++ [Asked v])
  | OStep k => req_step s k
  end.
Definition open_run (l : list oact) : oserver := foldl open_step open_new l.
End open.
