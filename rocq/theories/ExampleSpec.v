(** What the documentation of the shipped examples promises, in terms of the
    objects in the cluster. *)
From Verif Require Import JsonModel ObjModel ValueModel PipeJsonModel StageModel PipelineSpec ExampleModel.
#[local] Open Scope string_scope.

(** The value below the field names [l]; null if there is none. *)
Fixpoint at_path (l : list string) (v : json) : json :=
  match l with
  | [] => v
  | k :: l => match v with JMap m => match mget m k with Some v => at_path l v | None => JNull end | _ => JNull end
  end.
Notation at_ l d := (at_path l (JMap d)).
(** Text that is neither a path nor @now. *)
Definition text (s : string) : Prop := match s with EmptyString => False | String c _ => c <> "$"%char /\ c <> "@"%char end.
(** The object has this namespace and this name. *)
Definition located (d : jobj) (ns n : string) : Prop :=
  at_ ["metadata"; "namespace"] d = JStr ns /\ at_ ["metadata"; "name"] d = JStr n /\ text ns /\ text n.

(** *** What JSONPath must do *)
Fixpoint letters (s : string) : bool :=
  match s with EmptyString => true | String c s => let n := N_of_ascii c in ((65 <=? n) && (n <=? 90) || (97 <=? n) && (n <=? 122))%N && letters s end.
Definition word (s : string) : Prop := s <> EmptyString /\ letters s = true.
Fixpoint dotted (l : list string) : string := match l with [] => EmptyString | k :: l => "." +:+ k +:+ dotted l end.
(** The status of the first condition of type Ready that has one. *)
Fixpoint ready_in (cs : list json) : json :=
  match cs with
  | [] => JNull
  | JMap c :: cs =>
      match mget c "type", mget c "status" with
      | Some (JStr t), Some s => if String.eqb t "Ready" then s else ready_in cs
      | _, _ => ready_in cs
      end
  | _ :: cs => ready_in cs
  end.
Definition ready_of (d : jobj) : json := match at_ ["status"; "conditions"] d with JList cs => ready_in cs | _ => JNull end.
Section paths.
Context {FF : FloatFmt} {EE : ExprEnv}.
Definition reads_fields : Prop := forall l d, l <> [] -> Forall word l -> get_raw ("$" +:+ dotted l) d = Val (at_path l d).
Definition reads_pods : Prop :=
  (forall d, get_raw "$.metadata.labels['app']" (JMap d) = Val (at_ ["metadata"; "labels"; "app"] d))
  /\ (forall d, get_raw "$.status.conditions[?(@.type=='Ready')].status" (JMap d) = Val (ready_of d))
  /\ (forall v d, set_raw "$.pods" v d = Some (mset d "pods" v)).
End paths.

(** *** Deployments that are restarted when a ConfigMap changes *)
(** The ConfigDeployment asks that the Deployment follow the ConfigMap. *)
Definition wants (cd cm dp : jobj) : Prop := exists ns x c n, located cd ns x /\ located cm ns c /\ located dp ns n
  /\ at_ ["spec"; "configMap"] cd = JStr c /\ at_ ["spec"; "deployment"] cd = JStr n.
Definition version_patch (ns n v : string) : jobj :=
  [("apiVersion", JStr "apps/v1"); ("kind", JStr "Deployment");
   ("metadata", JMap [("name", JStr n); ("namespace", JStr ns)]);
   ("spec", JMap [("template", JMap [("metadata", JMap [("annotations", JMap [("dcontroller.io/configmap-version", JStr v)])])])])].
(** No two ConfigDeployments name the same Deployment. *)
Definition one_config (w : world) : Prop := forall cd1 cd2 ns x1 x2 n,
  In cd1 (of_kind "ConfigDeployment" w) -> In cd2 (of_kind "ConfigDeployment" w) -> located cd1 ns x1 -> located cd2 ns x2 ->
  at_ ["spec"; "deployment"] cd1 = JStr n -> at_ ["spec"; "deployment"] cd2 = JStr n -> cd1 = cd2.
(** The objects have proper names and versions. *)
Definition config_object (d : jobj) : Prop :=
  (exists ns n, located d ns n) /\ (get_kind d = "ConfigMap" -> exists v, at_ ["metadata"; "resourceVersion"] d = JStr v /\ text v)
  /\ (get_kind d = "ConfigDeployment" -> forall k s, k = "configMap" \/ k = "deployment" -> at_ ["spec"; k] d = JStr s -> text s).

(** *** The health of services *)
(** The label app of the pod, and what a HealthView says about it. *)
Definition app_of (d : jobj) : json := at_ ["metadata"; "labels"; "app"] d.
Definition pod_status (d : jobj) : json := JMap [("podName", at_ ["metadata"; "name"] d); ("ready", ready_of d)].
Definition is_ready (v : json) : bool := match at_path ["ready"] v with JStr s => String.eqb s "True" | _ => false end.
Definition view_of (ns a : string) (ps : list json) : jobj :=
  [("apiVersion", JStr "svc-health-operator.view.dcontroller.io/v1alpha1"); ("kind", JStr "HealthView");
   ("metadata", JMap [("name", JStr a); ("namespace", JStr ns)]); ("pods", JList ps)].
Definition ready_patch (ns n : string) (ready total : nat) : jobj :=
  [("apiVersion", JStr "v1"); ("kind", JStr "Service");
   ("metadata", JMap [("annotations", JMap [("dcontroller.io/pod-ready", JStr (enc_int (Z.of_nat ready) +:+ "/" +:+ enc_int (Z.of_nat total)))]);
                      ("name", JStr n); ("namespace", JStr ns)])].
(** The monitored pods of application [a] in namespace [ns]. *)
Definition pods_of (ns a : string) (w : world) : list jobj :=
  List.filter (fun d => is_str a (app_of d) && is_str ns (at_ ["metadata"; "namespace"] d)) (of_kind "Pod" w).
(** A pod with a name, an application, and Ready true, false or unknown. *)
Definition monitored (d : jobj) : Prop := exists ns n a, located d ns n /\ app_of d = JStr a /\ text a /\ has_slash a = false
  /\ match ready_of d with JNull => True | JStr s => text s | _ => False end.
(** The name and the namespace can be read off "name--namespace". *)
Definition splits (ds : list jobj) : Prop := forall d1 d2 a1 a2 s1 s2, In d1 ds -> In d2 ds ->
  app_of d1 = JStr a1 -> app_of d2 = JStr a2 -> at_ ["metadata"; "namespace"] d1 = JStr s1 -> at_ ["metadata"; "namespace"] d2 = JStr s2 ->
  a1 +:+ "--" +:+ s1 = a2 +:+ "--" +:+ s2 -> a1 = a2 /\ s1 = s2.
(** A HealthView as the first controller writes it, and a Service. *)
Definition pods_in (d : jobj) : list json := match at_ ["pods"] d with JList ps => ps | _ => [] end.
Definition health_object (d : jobj) : Prop :=
  (exists ns n, located d ns n)
  /\ (get_kind d = "HealthView" -> exists ps, at_ ["pods"] d = JList ps
        /\ Forall (fun v => match v with JMap _ => match at_path ["ready"] v with JNull => True | JStr s => text s | _ => False end | _ => False end) ps).
(** The HealthViews in [w] say about pods what the target [T] of the first controller says. *)
Definition sees (T : contents) (w : world) : Prop := forall ns a ps,
  (exists hv, In hv (of_kind "HealthView" w) /\ located hv ns a /\ at_ ["pods"] hv = JList ps) <-> (exists m, T (ns, a) = Some m /\ at_ ["pods"] m = JList ps).
Definition pod_ready (d : jobj) : bool := is_str "True" (ready_of d).
(** Histories of such objects. *)
Definition each (Q : jobj -> Prop) (ds : list delta) : Prop := Forall (fun d => Q (stripped (d_obj d))) ds.
