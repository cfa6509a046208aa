(** The same for the other specification of the example, which gathers all addresses
    of a port of a Service in one object. *)
From Verif Require Import JsonModel ObjModel ValueModel PipeJsonModel StageModel PipelineSpec ExampleModel EndpointModel ExampleSpec EndpointSpec.
#[local] Open Scope string_scope.

(** Service, protocol and number. *)
Definition full_name (svc pr : string) (k : nat) : string := svc +:+ "-" +:+ pr +:+ "-" +:+ enc_int (Z.of_nat k).
(** A port has a protocol and a number. *)
Definition a_port_of (port : json) (pr : string) (k : nat) : Prop := at_path ["protocol"] port = JStr pr /\ word pr /\ at_path ["port"] port = JInt (Z.of_nat k).
(** Kubernetes allows each combination of them once in a Service. *)
Definition named_service (d : jobj) : Prop :=
  service_object d /\ Forall (fun port => exists pr k, a_port_of port pr k) (ports_of d) /\ NoDup (map (fun port => (at_path ["protocol"] port, at_path ["port"] port)) (ports_of d)).

(** A ServiceView as the first controller writes it. *)
Definition named_view (d : jobj) : Prop :=
  exists svc pr k, at_ ["spec"; "serviceName"] d = JStr svc /\ text svc /\ has_slash svc = false /\ a_port_of (at_ ["spec"; "ports"] d) pr k /\ at_ ["metadata"; "name"] d = JStr (full_name svc pr k)
    /\ value_ok (at_ ["spec"; "type"] d) /\ value_ok (at_ ["spec"; "ports"; "targetPort"] d).
Definition gather_object (d : jobj) : Prop :=
  (exists ns n, located d ns n) /\ (get_kind d = "ServiceView" -> named_view d) /\ (get_kind d = "EndpointSlice" -> slice_ok d).
(** All ready addresses behind a view. *)
Definition addresses_of (sv : jobj) (w : world) : list json := flat_map (fun es => if belongs sv es then ready_addresses es else []) (of_kind "EndpointSlice" w).
Definition gathered_out (ns n : string) (l : list json) (sv : jobj) : jobj :=
  [("apiVersion", JStr "test-ep-operator.view.dcontroller.io/v1alpha1"); ("kind", JStr "EndpointView");
   ("metadata", JMap [("name", JStr n); ("namespace", JStr ns)]);
   ("spec", JMap [("addresses", JList l); ("port", at_ ["spec"; "ports"; "port"] sv); ("protocol", at_ ["spec"; "ports"; "protocol"] sv);
                  ("serviceName", at_ ["spec"; "serviceName"] sv); ("targetPort", at_ ["spec"; "ports"; "targetPort"] sv); ("type", at_ ["spec"; "type"] sv)])].
(** All ready addresses of a Service. *)
Definition service_addresses (ns svc : string) (w : world) : list json :=
  flat_map (fun es => if is_str svc (service_of es) && is_str ns (at_ ["metadata"; "namespace"] es) then ready_addresses es else []) (of_kind "EndpointSlice" w).
