(** Model of the way of an HTTP request for views through the API server: the filters
    of pkg/apiserver/builder.go, the routing of resource_handler.go and the handlers
    of k8s.io/apiserver, down to the calls of the storage (StorageModel).

    Recalled from k8s.io/apiserver 0.34: RequestInfoFactory.NewRequestInfo,
    WithAuthentication, WithAuthorization and the handlers for each verb.

    Simplifications: the body, the query and the patch are given decoded; tables, audit,
    timeouts and the bookkeeping of managed fields are left out; watches stop where
    they are opened. *)
From Verif Require Export StorageModel RegistryModel.
From Verif Require AuthModel TokenModel.

(** The query: whether it asks for a watch, and the selectors, unless it cannot be
    decoded; [y_name] is the name that the field selector requires. *)
Record query := Query {
  y_labels : option (option (list (string * string)) -> bool); y_fields : option (list (string * string) -> bool); y_name : option string }.
(** A request.  [h_auth] is the Authorization header, empty if it is missing; [h_body] the
    object in the body; [h_patch] what the patch makes of an object, or of none. *)
Record http := Http {
  h_method : string; h_path : string; h_auth : string; h_watch : bool; h_query : option query;
  h_body : option jobj; h_patch : option jobj -> option jobj; h_apply : bool; h_opts : ropts }.

(** *** RequestInfo *)
Definition slash : ascii := "/"%char.
(** strings.Split (s, "/") *)
Fixpoint split_parts (s : string) : list string :=
  match s with
  | EmptyString => [EmptyString]
  | String c s =>
      if decide (c = slash) then EmptyString :: split_parts s
      else match split_parts s with p :: ps => String c p :: ps | [] => [String c EmptyString] end
  end.
Fixpoint drop_slashes (s : string) : string :=
  match s with String c t => if decide (c = slash) then drop_slashes t else s | EmptyString => s end.
Fixpoint drop_last_slashes (s : string) : string :=
  match s with
  | EmptyString => EmptyString
  | String c t => match drop_last_slashes t with EmptyString => if decide (c = slash) then EmptyString else String c EmptyString | t' => String c t' end
  end.
(** splitPath *)
Definition split_path (path : string) : list string :=
  match drop_last_slashes (drop_slashes path) with EmptyString => [] | s => split_parts s end.

Record rinfo := RInfo {
  i_resource_request : bool; i_verb : string; i_group : string; i_version : string;
  i_namespace : string; i_resource : string; i_sub : string; i_name : string }.
Definition no_resource (h : http) : rinfo := RInfo false (lower (h_method h)) "" "" "" "" "" "".
Definition method_verb (m : string) : string :=
  if decide (m = "POST"%string) then "create"
  else if decide (m = "GET"%string) then "get" else if decide (m = "HEAD"%string) then "get"
  else if decide (m = "PUT"%string) then "update" else if decide (m = "PATCH"%string) then "patch"
  else if decide (m = "DELETE"%string) then "delete" else "".
(** The namespace, and the parts from the resource on. *)
Definition scope_parts (parts : list string) : string * list string :=
  match parts with
  | a :: ns :: rest =>
      if decide (a = "namespaces"%string) then
        match rest with
        | sub :: _ => if decide (sub = "status"%string \/ sub = "finalize"%string) then (ns, parts) else (ns, rest)
        | [] => (ns, parts)
        end
      else (EmptyString, parts)
  | _ => (EmptyString, parts)
  end.
(** After the version and the verb in the path: the namespace, the resource, the name and the
    subresource. *)
Definition info_parts (h : http) (group version verb : string) (parts : list string) : rinfo :=
  let '(ns, parts) := scope_parts parts in
  let resource := match parts with r :: _ => r | [] => EmptyString end in
  let name := match parts with _ :: n :: _ => n | _ => EmptyString end in
  let sub := match parts with _ :: _ :: s :: _ => if decide (verb = "proxy"%string) then EmptyString else s | _ => EmptyString end in
  if decide (name = EmptyString /\ verb = "get"%string) then
    RInfo true (if h_watch h then "watch" else "list") group version ns resource sub
      (match h_query h with Some y => default EmptyString (y_name y) | None => EmptyString end)
  else if decide (name = EmptyString /\ verb = "delete"%string) then RInfo true "deletecollection" group version ns resource sub name
  else RInfo true verb group version ns resource sub name.
(** NewRequestInfo; [None] is an error. *)
Definition request_info (h : http) : option rinfo :=
  let after (group version : string) (parts : list string) :=
    match parts with
    | v :: rest =>
        if decide (v = "watch"%string \/ v = "proxy"%string) then
          match rest with [] => None | _ => Some (info_parts h group version v rest) end
        else Some (info_parts h group version (method_verb (h_method h)) parts)
    | [] => Some (no_resource h)
    end in
  match split_path (h_path h) with
  | prefix :: a :: b :: rest =>
      if decide (prefix = "api"%string) then after EmptyString a (b :: rest)
      else if decide (prefix = "apis"%string) then match rest with [] => Some (no_resource h) | _ => after a b rest end
      else Some (no_resource h)
  | _ => Some (no_resource h)
  end.

(** *** The handlers *)
Inductive hreply :=
  | H400 | H401 | H403 | H404 | H405 | H500
  | HOther (* by the next handler, which serves no views *)
  | HStorage (r : sreply) | HWatch (x : gvk) (s : selection).

(** rest.EnsureObjectNamespaceMatchesRequestNamespace *)
Definition match_namespace (ns : string) (m : jobj) : option jobj :=
  if decide (get_namespace m = ns) then Some m
  else if decide (get_namespace m = EmptyString) then Some (set_namespace m ns)
  else if decide (ns = EmptyString) then Some (set_namespace m EmptyString)
  else None.
(** checkName *)
Definition name_fits (ns name : string) (m : jobj) : bool :=
  negb (String.eqb (get_name m) EmptyString) && String.eqb (get_name m) name
  && (String.eqb ns EmptyString || String.eqb (get_namespace m) EmptyString || String.eqb (get_namespace m) ns).
(** ListResource: the selectors; a name in the path must agree with the field selector. *)
Definition list_fields (name : string) (y : query) : option (option (list (string * string) -> bool)) :=
  if decide (name = EmptyString) then Some (y_fields y)
  else match y_fields y with
       | Some f => if decide (y_name y = Some name) then Some (Some f) else None
       | None => Some (Some (fun fs => existsb (fun kv => String.eqb kv.1 "metadata.name" && String.eqb kv.2 name) fs))
       end.
Definition ok1 (m : jobj) : bool := true.
Definition ok2 (m n : jobj) : bool := true.
(** GetResource, ListResource, CreateResource, UpdateResource, PatchResource,
    DeleteResource and DeleteCollection, with no admission control
    (resource_handler.go:136-198): the call of the storage. *)
Inductive hcall := CallStorage (r : sreq) | CallWatch (s : selection) | CallNone (e : hreply).
Definition handler (i : rinfo) (h : http) : hcall :=
  let ns := i_namespace i in
  let name := i_name i in
  let v := i_verb i in
  if decide (v = "get"%string) then CallStorage (SGet (Some ns) name)
  else if decide (v = "list"%string \/ v = "watch"%string) then
    match h_query h with
    | None => CallNone H400
    | Some y =>
        match list_fields name y with
        | None => CallNone H400
        | Some fields =>
            if decide (v = "watch"%string) then CallWatch (Selection ns (y_labels y) fields) else CallStorage (SList (Some ns) (y_labels y) fields)
        end
    end
  else if decide (v = "create"%string) then
    match h_body h ≫= match_namespace ns with
    | None => CallNone H400
    | Some m => CallStorage (SCreate (Some ns) m ok1 (h_opts h))
    end
  else if decide (v = "update"%string) then
    match h_body h ≫= match_namespace ns with
    | None => CallNone H400
    | Some m => if name_fits ns name m then CallStorage (SUpdate (Some ns) name (fun _ => Some m) ok1 ok2 false (h_opts h)) else CallNone H400
    end
  else if decide (v = "patch"%string) then
    if decide (name = EmptyString) then CallNone H400
    else CallStorage (SUpdate (Some ns) name (fun cur => m ← h_patch h cur; if name_fits ns name m then Some m else None) ok1 ok2 (h_apply h) (h_opts h))
  else if decide (v = "delete"%string) then CallStorage (SDelete (Some ns) name ok1 (h_opts h))
  else if decide (v = "deletecollection"%string) then
    match h_query h with None => CallNone H400 | Some y => CallStorage (SDeleteAll (Some ns) ok1 (y_labels y) (y_fields y) (h_opts h)) end
  else CallNone H405.

Section gate.
Context `{J : TokenModel.Jwt}.
Variable hash : string -> string.
Variable lister : store -> list jobj.

(** builder.go:74 (the mux), resource_handler.go:80-135 *)
Definition dispatch (s : apiserver) (c : caches) (i : rinfo) (h : http) : caches * list (gvk * wevent) * hreply :=
  if negb (AuthModel.has_prefix (h_path h) "/apis/") || negb (i_resource_request i) then (c, [], HOther)
  else match serve_http s (Request (i_group i) (i_version i) (i_resource i) (i_sub i) (i_verb i)) with
       | Delegate => (c, [], HOther)
       | NotFound404 => (c, [], H404)
       | NotAllowed405 => (c, [], H405)
       | Handle x _ =>
           match handler i h with
           | CallNone e => (c, [], e)
           | CallWatch sel => (c, [], HWatch x sel)
           | CallStorage r => let '(c', es, p) := serve hash lister x true c r in (c', es, HStorage p)
           end
       end.
(** genericapifilters.GetAuthorizerAttributes *)
Definition attributes (u : AuthModel.user string) (i : rinfo) : AuthModel.request string :=
  AuthModel.Request (Some u) (i_resource_request i) (i_verb i) (i_group i) (i_resource i) (i_sub i) (i_name i) (i_namespace i).
(** builder.go:146-181; main.go:268-289 sets both the authenticator and the authorizer, or,
    with [None], neither. *)
Definition gate (auth : option TokenModel.pkey) (now : Z) (s : apiserver) (c : caches) (h : http) : caches * list (gvk * wevent) * hreply :=
  match request_info h with
  | None => (c, [], H500)
  | Some i =>
      match auth with
      | None => dispatch s c i h
      | Some p =>
          match TokenModel.authenticate p now (h_auth h) with
          | TokenModel.Known _ u => if AuthModel.authorize TokenModel.rules_read (attributes u i) then dispatch s c i h else (c, [], H403)
          | _ => (c, [], H401)
          end
      end
  end.

(** The server at work: registrations, requests at their times, and writes by others. *)
Inductive gevent := GRegister (r : rcall) | GRequest (now : Z) (h : http) | GWrite (o : vop).
Definition gstep (servable : gvk -> bool) (auth : option TokenModel.pkey) (st : apiserver * caches) (e : gevent) : apiserver * caches :=
  match e with
  | GRegister r => ((rstep servable st.1 r).1, st.2)
  | GRequest now h => (st.1, (gate auth now st.1 st.2 h).1.1)
  | GWrite o => (st.1, (vstep hash lister st.2 o).1.1)
  end.
Definition grun (servable : gvk -> bool) (auth : option TokenModel.pkey) (es : list gevent) : apiserver * caches :=
  fold_left (gstep servable auth) es (api_new, ∅).
End gate.
