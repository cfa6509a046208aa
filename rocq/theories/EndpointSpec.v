(** What the documentation of the EndpointSlice example promises, in terms of the
    objects in the cluster. *)
From Verif Require Import JsonModel ObjModel ValueModel PipeJsonModel StageModel PipelineSpec ExampleModel EndpointModel ExampleSpec.
#[local] Open Scope string_scope.

(** *** What JSONPath must do *)
(** The object with [v] below the field names [l], if all but the last one exist. *)
Fixpoint put_at (l : list string) (v : json) (d : jobj) : option jobj :=
  match l with
  | [] => None
  | [k] => Some (mset d k v)
  | k :: l => match mget d k with Some (JMap m) => m' ← put_at l v m; Some (mset d k (JMap m')) | _ => None end
  end.
Definition annotation_of (d : jobj) : json := at_ ["metadata"; "annotations"; "dcontroller.io/endpointslice-controller-enabled"] d.
Definition service_of (d : jobj) : json := at_ ["metadata"; "labels"; "kubernetes.io/service-name"] d.
Section paths.
Context {FF : FloatFmt} {EE : ExprEnv}.
Definition sets_fields : Prop := forall l v d d', Forall word l -> put_at l v d = Some d' -> set_raw ("$" +:+ dotted l) v d = Some d'.
Definition reads_quoted : Prop :=
  (forall d, get_raw "$[""metadata""][""annotations""][""dcontroller.io/endpointslice-controller-enabled""]" (JMap d) = Val (annotation_of d))
  /\ (forall d es, mget d "EndpointSlice" = Some (JMap es) -> get_raw "$[""EndpointSlice""][""metadata""][""labels""][""kubernetes.io/service-name""]" (JMap d) = Val (service_of es))
  /\ (forall d, get_raw "$" d = Val d).
End paths.
(** A string is neither a path nor @now. *)
Definition value_ok (v : json) : Prop := match v with JStr s => text s | _ => True end.
Definition list_or_null (v : json) : Prop := match v with JNull | JList _ => True | _ => False end.
Definition items (v : json) : list json := match v with JList l => l | _ => [] end.

(** *** One ServiceView for each port of an annotated Service *)
Definition ports_of (d : jobj) : list json := items (at_ ["spec"; "ports"] d).
Definition port_view (ns n svc : string) (ty port : json) : jobj :=
  [("apiVersion", JStr "test-ep-operator.view.dcontroller.io/v1alpha1"); ("kind", JStr "ServiceView");
   ("metadata", JMap [("name", JStr n); ("namespace", JStr ns)]);
   ("spec", JMap [("ports", port); ("serviceName", JStr svc); ("type", ty)])].
Definition service_object (d : jobj) : Prop :=
  (exists ns n, located d ns n) /\ list_or_null (at_ ["spec"; "ports"] d) /\ value_ok (at_ ["spec"; "type"] d).
Definition port_name (svc : string) (i : nat) : string := svc +:+ "-" +:+ enc_int (Z.of_nat i).

(** *** One EndpointView for each port of a Service and each ready address behind it *)
Definition is_true (v : json) : bool := match v with JBool b => b | _ => false end.
Definition ready_addresses (es : jobj) : list json :=
  flat_map (fun e => if is_true (at_path ["conditions"; "ready"] e) then items (at_path ["addresses"] e) else []) (items (at_ ["endpoints"] es)).
Definition endpoint_spec (sv : jobj) (a : json) : json :=
  JMap [("address", a); ("port", at_ ["spec"; "ports"; "port"] sv); ("protocol", at_ ["spec"; "ports"; "protocol"] sv);
        ("serviceName", at_ ["spec"; "serviceName"] sv); ("targetPort", at_ ["spec"; "ports"; "targetPort"] sv); ("type", at_ ["spec"; "type"] sv)].
Definition same_text (a b : json) : bool := match a with JStr s => is_str s b | _ => false end.
(** The slice belongs to the Service of the view. *)
Definition belongs (sv es : jobj) : bool :=
  same_text (at_ ["spec"; "serviceName"] sv) (service_of es) && same_text (at_ ["metadata"; "namespace"] sv) (at_ ["metadata"; "namespace"] es).
(** Namespace, name of the Service, and specification of all endpoints. *)
Definition endpoints (w : world) : list (json * json * json) :=
  flat_map (fun sv => flat_map (fun es => if belongs sv es then map (fun a => (at_ ["metadata"; "namespace"] sv, at_ ["spec"; "serviceName"] sv, endpoint_spec sv a)) (ready_addresses es) else [])
    (of_kind "EndpointSlice" w)) (of_kind "ServiceView" w).
Definition endpoint_out (ns n : string) (spec : json) : jobj :=
  [("apiVersion", JStr "test-ep-operator.view.dcontroller.io/v1alpha1"); ("kind", JStr "EndpointView");
   ("metadata", JMap [("name", JStr n); ("namespace", JStr ns)]); ("spec", spec)].
Section names.
Context {FF : FloatFmt} {EE : ExprEnv}.
(** What @hash makes of the specification. *)
Definition hash_of (v : json) : string := match op_hash v with Val (JStr s) => s | _ => EmptyString end.
Definition str_of (v : json) : string := match v with JStr s => s | _ => EmptyString end.
Definition endpoint_id (x : json * json * json) : string * string := (str_of x.1.1, str_of x.1.2 +:+ "-" +:+ hash_of x.2).
(** No two endpoints have the same namespace, Service and hash. *)
Definition apart (w : world) : Prop := NoDup (map endpoint_id (endpoints w)).
End names.
(** A ServiceView as the first controller writes it, and an EndpointSlice. *)
Definition endpoint_ok (e : json) : Prop := match e with
  | JMap _ => match at_path ["conditions"; "ready"] e with JNull | JBool _ => True | _ => False end
      /\ list_or_null (at_path ["addresses"] e) /\ Forall (fun a => match a with JStr s => text s | _ => False end) (items (at_path ["addresses"] e))
  | _ => False
  end.
Definition view_ok (d : jobj) : Prop :=
  (exists svc, at_ ["spec"; "serviceName"] d = JStr svc /\ text svc /\ has_slash svc = false)
  /\ Forall (fun l => value_ok (at_ l d)) [["spec"; "type"]; ["spec"; "ports"; "port"]; ["spec"; "ports"; "protocol"]; ["spec"; "ports"; "targetPort"]].
Definition slice_ok (d : jobj) : Prop :=
  value_ok (service_of d) /\ list_or_null (at_ ["endpoints"] d) /\ Forall endpoint_ok (items (at_ ["endpoints"] d)).
Definition endpoint_object (d : jobj) : Prop :=
  (exists ns n, located d ns n) /\ (get_kind d = "ServiceView" -> view_ok d) /\ (get_kind d = "EndpointSlice" -> slice_ok d).
(** The ServiceViews in [w] are those that the first controller wrote. *)
Definition sees_views (T : contents) (w : world) : Prop := forall d, In d (of_kind "ServiceView" w) <-> exists i, T i = Some d.
