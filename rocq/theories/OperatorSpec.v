(** Specification vocabulary for the operator registry. *)
From Verif Require Import RegistryModel RegistrySpec OperatorModel.

(** The specification an operator should run with after a history of reconciler
    calls: that of the last call for its name that found the Operator object;
    none if the last one did not find it, or if its manager could not be created;
    that call fails and is repeated.  Failed reads do not count. *)
Definition wanted_step (n : string) (w : option (list cspec)) (c : ocall) : option (list cspec) :=
  match c with
  | Reconcile n' (FSpec cs) created => if decide (n' = n) then (if created then Some cs else None) else w
  | Reconcile n' FMissing _ => if decide (n' = n) then None else w
  | _ => w
  end.
Definition wanted (h : list ocall) (n : string) : option (list cspec) := fold_left (wanted_step n) h None.

(** A source or target that is a view of the operator: without a group, or with
    the operator's own group. *)
Definition own_view_kind (n : string) (r : rsrc) (kind : string) : Prop :=
  s_kind r = kind /\ kind <> EmptyString /\ (s_group r = None \/ s_group r = Some (n +:+ ".view.dcontroller.io")%string).
(** The view kinds of an operator: those of the targets and sources of the
    controllers that have a name, a target and sources.  If the kind of the target
    is unknown the sources do not count. *)
Definition view_kind_of (mapper : string -> string -> option gvk) (n : string) (cs : list cspec) (kind : string) : Prop :=
  exists c t, c ∈ cs /\ c_name c <> EmptyString /\ c_sources c <> [] /\ c_target c = Some t /\
    (own_view_kind n t kind \/ (res_gvk mapper n t <> None /\ exists r, r ∈ c_sources c /\ own_view_kind n r kind)).
(** The REST mapper knows native resources only. *)
Definition native_mapper (mapper : string -> string -> option gvk) : Prop :=
  forall g r x, mapper g r = Some x -> is_view_group (gvk_group x) = false.

(** The calls that report success to controller-runtime; the others are repeated. *)
Definition succeeds (c : ocall) : bool := match c with Reconcile _ (FSpec _) created => created | Reconcile _ FMissing _ => true | _ => false end.

(** Histories of reconciler calls in which no view kind is one that the API server
    refuses. *)
Definition specs_of (c : ocall) : list (string * list cspec) := match c with Reconcile n (FSpec cs) _ => [(n, cs)] | _ => [] end.
Definition all_kinds (mapper : string -> string -> option gvk) (h : list ocall) (x : gvk) : Prop :=
  exists c n cs kind, c ∈ h /\ (n, cs) ∈ specs_of c /\ view_kind_of mapper n cs kind /\ x = GVK (n +:+ ".view.dcontroller.io") "v1alpha1" kind.
Record history_ok (mapper : string -> string -> option gvk) (servable : gvk -> bool) (h : list ocall) : Prop := {
  h_calls : forall c, c ∈ h -> match c with Reconcile _ _ _ => True | _ => False end;
  h_kinds : kinds_ok servable (all_kinds mapper h) }.

(** The operators that run, with the contexts in which they run. *)
Definition running (s : opctl) (n : string) (i : nat) (o : oper) : Prop := live s !! i = Some o /\ o_name o = n.
(** The controller after Start, with an API server and without operators. *)
Definition ready : opctl := start_ctl [] (set_api opctl_new).
