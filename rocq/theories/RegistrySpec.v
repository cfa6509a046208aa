(** Specification vocabulary for the registration of view kinds. *)
From Verif Require Import RegistryModel.

(** The kinds of one group in a list. *)
Definition in_group (g : string) (l : list gvk) : list gvk := List.filter (fun x => bool_decide (gvk_group x = g)) l.
(** The most recent registration of a group: empty if there was none or the group
    was unregistered after it. *)
Definition latest_step (g : string) (cur : list gvk) (c : rcall) : list gvk :=
  match c with
  | RegisterGroup g' l => if decide (g' = g) then l else cur
  | UnregisterGroup g' => if decide (g' = g) then [] else cur
  | RegisterGVKs _ l => match in_group g l with [] => cur | l' => l' end
  | UnregisterGVKs _ l => match in_group g l with [] => cur | _ => [] end
  end.
Definition latest (cs : list rcall) (g : string) : list gvk := fold_left (latest_step g) cs [].

(** The view kinds registered by a call. *)
Definition view_group_name (g : string) : Prop := exists p, g = p +:+ "view.dcontroller.io".
Definition names (c : rcall) (x : gvk) : Prop :=
  view_group_name (gvk_group x) /\ match c with RegisterGroup _ l | RegisterGVKs _ l => x ∈ l | _ => False end.
Definition ever (cs : list rcall) (x : gvk) : Prop := exists c, c ∈ cs /\ names c x.

(** [order] goes once through the groups of [l]. *)
Definition order_of (order : list string) (l : list gvk) : Prop :=
  NoDup order /\ forall g, g ∈ order <-> exists x, x ∈ l /\ gvk_group x = g.
Definition call_ok (c : rcall) : Prop :=
  match c with
  | RegisterGroup g l => l <> [] /\ forall x, x ∈ l -> gvk_group x = g
  | UnregisterGroup _ => True
  | RegisterGVKs o l | UnregisterGVKs o l => order_of o l
  end.
(** The kinds that the Kubernetes machinery uses itself. *)
Definition reserved : list string :=
  ["WatchEvent"; "ListOptions"; "GetOptions"; "DeleteOptions"; "CreateOptions"; "UpdateOptions"; "PatchOptions"].
(** No view kind is reserved, none is another one with "List" appended, all can be
    served. *)
Definition kinds_ok (servable : gvk -> bool) (M : gvk -> Prop) : Prop :=
  forall x, M x -> gvk_version x = "v1alpha1"%string /\ servable x = true /\ gvk_kind x ∉ reserved /\
    forall y, M y -> gvk_group y = gvk_group x -> gvk_kind y <> (gvk_kind x +:+ "List")%string.
Record calls_ok (servable : gvk -> bool) (cs : list rcall) : Prop := {
  ok_calls : forall c, c ∈ cs -> call_ok c;
  ok_kinds : kinds_ok servable (ever cs) }.

(** No registration drops a kind of its group: a group is unregistered before it
    is registered with other kinds. *)
Definition never_drops (cs : list rcall) : Prop :=
  forall pre c post g x, cs = pre ++ c :: post -> x ∈ latest pre g -> latest (pre ++ [c]) g = [] \/ x ∈ latest (pre ++ [c]) g.

(** A resource is served: a plain get of it is answered by the storage of some
    kind. *)
Definition served_by (s : apiserver) (g v r : string) (x : gvk) : Prop := serve_http s (Request g v r "" "get") = Handle x "get".
Definition served (s : apiserver) (g v r : string) : Prop := exists x, served_by s g v r x.

(** No two kinds of the list differ in case only. *)
Definition case_distinct (l : list gvk) : Prop := forall x y, x ∈ l -> y ∈ l -> lower (gvk_kind x) = lower (gvk_kind y) -> x = y.
