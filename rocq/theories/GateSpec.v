(** Specification vocabulary for requests to the API server, from the header to the
    objects. *)
From Verif Require Import ViewModel PipelineSpec ViewSpec StorageModel StorageSpec RegistryModel RegistrySpec GateModel.
From Verif Require AuthModel AuthSpec TokenModel TokenSpec.

(** A request fit to be answered: objects in it are sendable, and a patch leaves an object in
    the namespace of the URL. *)
Definition http_ok (h : http) : Prop :=
  (forall m, h_body h = Some m -> sendable m /\ has_slash (get_name m) = false)
  /\ (forall i cur m, request_info h = Some i -> stored_as (i_namespace i, i_name i) cur -> h_patch h cur = Some m ->
        sendable m /\ get_namespace m = i_namespace i).
Definition event_ok (e : gevent) : Prop :=
  match e with
  | GRegister r => forall x, names r x -> own_kind x /\ gvk_ok x
  | GRequest _ h => http_ok h
  | GWrite o => op_ok o
  end.

Section spec.
Context `{J : TokenModel.Jwt}.
(** The request bears a token that the server should honour now, with these claims. *)
Definition bears (p : TokenModel.pkey) (now : Z) (h : http) (c : TokenModel.token_claims) : Prop :=
  exists t, h_auth h = ("Bearer " +:+ t)%string /\ TokenSpec.honoured p now t c.
(** The token allows its owner to do this to objects of this kind, namespace and name. *)
Definition allows (c : TokenModel.token_claims) (verb : string) (y : gvk) (ns name : string) : Prop :=
  AuthSpec.admits (TokenModel.tc_namespaces c) ns
  /\ AuthSpec.permits (TokenModel.tc_rules c) verb (gvk_group y) (lower (gvk_kind y)) name.
End spec.
Definition writing : list string := ["create"; "update"; "patch"; "delete"; "deletecollection"].
Definition answer (r : hreply) : list jobj := match r with HStorage r => shown r | _ => [] end.
Definition same_answer (r1 r2 : hreply) : Prop :=
  r1 = r2 \/ exists p1 p2, r1 = HStorage p1 /\ r2 = HStorage p2 /\ alike p1 p2.

(** *** URLs *)
(** A part of a URL. *)
Definition part (s : string) : Prop := s <> EmptyString /\ has_slash s = false.
Definition url (parts : list string) : string := "/" +:+ String.concat "/" parts.
(** What a request is for, by its method, whether it asks for a watch, and whether it
    names an object. *)
Inductive asks : string -> bool -> bool -> string -> Prop :=
  | asks_get m w : m = "GET"%string \/ m = "HEAD"%string -> asks m w true "get"
  | asks_list m : m = "GET"%string \/ m = "HEAD"%string -> asks m false false "list"
  | asks_watch m : m = "GET"%string \/ m = "HEAD"%string -> asks m true false "watch"
  | asks_create w : asks "POST" w false "create"
  | asks_update w : asks "PUT" w true "update"
  | asks_patch w : asks "PATCH" w true "patch"
  | asks_delete w : asks "DELETE" w true "delete"
  | asks_delete_all w : asks "DELETE" w false "deletecollection".
(** What the storage of the kind is asked to do. *)
Inductive means (h : http) (ns name : string) : string -> sreq -> Prop :=
  | means_get : means h ns name "get" (SGet (Some ns) name)
  | means_list y : h_query h = Some y -> (y_fields y = None -> y_name y = None) -> means h ns name "list" (SList (Some ns) (y_labels y) (y_fields y))
  | means_create m : h_body h = Some m -> get_namespace m = ns -> means h ns name "create" (SCreate (Some ns) m ok1 (h_opts h))
  | means_update m : h_body h = Some m -> obj_id m = (ns, name) -> means h ns name "update" (SUpdate (Some ns) name (fun _ => Some m) ok1 ok2 false (h_opts h))
  | means_delete : means h ns name "delete" (SDelete (Some ns) name ok1 (h_opts h))
  | means_delete_all y : h_query h = Some y -> means h ns name "deletecollection" (SDeleteAll (Some ns) ok1 (y_labels y) (y_fields y) (h_opts h)).
(** The URL of the objects of a kind in a namespace ("" for all), and of one of them. *)
Definition home (x : gvk) (ns : string) : list string :=
  ["apis"%string; gvk_group x; gvk_version x] ++ (if decide (ns = EmptyString) then [] else ["namespaces"%string; ns]) ++ [lower (gvk_kind x)].
(** The kind has no name that means something else in a URL. *)
Definition url_kind (x : gvk) (ns : string) : Prop :=
  part (gvk_group x) /\ part (gvk_version x) /\ part (lower (gvk_kind x)) /\ (ns = EmptyString \/ part ns)
  /\ lower (gvk_kind x) ∉ (if decide (ns = EmptyString) then ["watch"; "proxy"; "namespaces"] else ["status"; "finalize"])%string.
