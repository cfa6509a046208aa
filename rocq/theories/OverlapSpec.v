(** Specification vocabulary for calls on the view cache that overlap. *)
From Verif Require Import ViewModel ZSetSpec PipelineSpec GroupSpec ValueSpec JsonSpec ViewSpec StorageModel StorageSpec OverlapModel.

(** The call only reads. *)
Definition reading (a : sact) : bool := match a with Api _ (SGet _ _) | Api _ (SList _ _ _) => true | _ => false end.
(** The call stores the object it brings, whatever is there. *)
Definition posting (a : sact) : bool := match a with Api _ (SCreate _ _ _ _) | Write (VCreate _) => true | _ => false end.
(** The call removes all objects that are selected. *)
Definition collective (a : sact) : bool := match a with Api _ (SDeleteAll _ _ _ _ _) | Write (VDeleteAll _ _) => true | _ => false end.
(** The kind, namespace and name of the object that the call is about. *)
Definition subject (a : sact) : gvk * (string * string) :=
  match a with
  | Api x (SGet ns name) | Api x (SUpdate ns name _ _ _ _ _) | Api x (SDelete ns name _ _) => (x, (default EmptyString ns, name))
  | Api x (SCreate ns m _ _) => (x, (default EmptyString ns, get_name m))
  | Api x (SList ns _ _) | Api x (SDeleteAll ns _ _ _ _) => (x, (default EmptyString ns, EmptyString))
  | Write (VCreate m) | Write (VUpdate m) | Write (VPatch m _) | Write (VDelete m) | Write (VDeleteAll m _)
  | Write (VSubUpdate _ m) | Write (VSubCreate _ m _) => source_id m
  end.
(** Two calls that may overlap: one of them only reads, or both bring whole objects, or
    they are about different objects. *)
Definition may_overlap (a b : sact) : Prop :=
  reading a = true \/ reading b = true \/ (posting a = true /\ posting b = true) \/ subject a <> subject b.

(** Each call begins, unless it removes a collection, while only such calls are open as it
    may overlap with. *)
Definition begins_apart (s : over) (t : turn) : Prop :=
  match t with
  | Begin _ a => collective a = false /\ forall j b p, o_open s !! j = Some (b, p) -> may_overlap a b
  | Go _ => True
  end.
Fixpoint apart (hash : string -> string) (lister : store -> list jobj) (s : over) (l : list turn) : Prop :=
  match l with
  | [] => True
  | t :: l => begins_apart s t /\ match turn_step hash lister s t with Some s' => apart hash lister s' l | None => True end
  end.
Definition turn_ok (t : turn) : Prop := match t with Begin _ a => sact_ok a | Go _ => True end.

(** The calls that are over, in the order of their last accesses, and what they returned. *)
Definition calls_over (s : over) : list sact := map (fun d => d.1.2) (o_done s).
Definition results_over (s : over) : list sresult := map snd (o_done s).

(** *** One object *)
(** The call is about this object and no other. *)
Definition names (o : gvk * (string * string)) (a : sact) : bool :=
  negb (collective a) && match a with Api _ (SList _ _ _) => false | _ => true end && bool_decide (subject a = o).
(** The collection may have the object in it. *)
Definition may_include (o : gvk * (string * string)) (a : sact) : Prop :=
  match a with
  | Api x (SDeleteAll ns _ _ _ _) => x = o.1 /\ (default EmptyString ns = EmptyString \/ default EmptyString ns = o.2.1)
  | Write (VDeleteAll m s) => get_gvk m = o.1 /\ (sel_ns s = EmptyString \/ sel_ns s = o.2.1)
  | _ => False
  end.
(** Calls about this object are apart; there may be any others, except for the removal of
    a collection that it may be in. *)
Definition begins_apart_on (o : gvk * (string * string)) (s : over) (t : turn) : Prop :=
  match t with
  | Begin _ a => ~ may_include o a /\ (names o a = true -> forall j b p, o_open s !! j = Some (b, p) -> names o b = true -> may_overlap a b)
  | Go _ => True
  end.
Fixpoint apart_on (hash : string -> string) (lister : store -> list jobj) (o : gvk * (string * string)) (s : over) (l : list turn) : Prop :=
  match l with
  | [] => True
  | t :: l => begins_apart_on o s t /\ match turn_step hash lister s t with Some s' => apart_on hash lister o s' l | None => True end
  end.
(** The calls about one object that are over. *)
Definition over_on (o : gvk * (string * string)) (s : over) : list (nat * sact * sresult) := List.filter (fun d => names o d.1.2) (o_done s).
