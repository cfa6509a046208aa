(** Model of pkg/predicate/predicate.go and of the way in which a watch source
    (pkg/reconciler/source.go, reconciler.go) turns informer events into requests.

    The predicates of controller-runtime are recalled: the change predicates
    look at update events only and accept the others; And, Or and Not act on
    each kind of event; label and namespace selectors look at the (new) object;
    a source passes an event on when all its predicates accept it.
    A map is a list sorted by key; JSON texts are trees. *)
From Verif Require Export PipelineModel.

(** *** Informer events *)
Inductive wevent :=
  | WCreate (new : jobj)
  | WUpdate (old new : option jobj)
  | WDelete (last : jobj)
  | WGeneric (obj : jobj).

(** *** Object metadata (unstructured.Unstructured) *)
Definition get_generation (m : jobj) : Z := match nested_get m ["metadata"; "generation"] with Some (JInt n) => n | _ => 0 end.
Definition get_version (m : jobj) : string := nested_str m ["metadata"; "resourceVersion"].
(** NestedStringMap: nil unless all values are strings. *)
Definition string_map (v : option json) : option (list (string * string)) :=
  match v with
  | Some (JMap m) => mapM (fun kv : string * json => match kv.2 with JStr s => Some (kv.1, s) | _ => None end) m
  | _ => None
  end.
Definition get_labels (m : jobj) : option (list (string * string)) := string_map (nested_get m ["metadata"; "labels"]).
Definition get_annotations (m : jobj) : option (list (string * string)) := string_map (nested_get m ["metadata"; "annotations"]).

(** *** controller-runtime predicates *)
Notation predicate := (wevent -> bool).
Definition changed {A} `{EqDecision A} (f : jobj -> A) : predicate := fun e =>
  match e with
  | WUpdate (Some old) (Some new) => negb (bool_decide (f old = f new))
  | WUpdate _ _ => false
  | _ => true
  end.
Definition p_and (l : list predicate) : predicate := fun e => forallb (fun p => p e) l.
Definition p_or (l : list predicate) : predicate := fun e => existsb (fun p => p e) l.
Definition p_not (p : predicate) : predicate := fun e => negb (p e).
(** NewPredicateFuncs *)
Definition p_funcs (f : jobj -> bool) : predicate := fun e =>
  match e with
  | WCreate m | WDelete m | WGeneric m => f m
  | WUpdate _ (Some m) => f m
  | WUpdate _ None => false
  end.

(** *** predicate.go *)

(** predicate.go:71-82 *)
Inductive pred := Pred (basic : option string) (bool : option (list (string * list pred))).

(** predicate.go:124-138 BasicPredicate.ToPredicate *)
Definition basic_predicate (s : string) : option predicate :=
  if decide (s = "GenerationChanged"%string) then Some (changed get_generation)
  else if decide (s = "ResourceVersionChanged"%string) then Some (changed get_version)
  else if decide (s = "LabelChanged"%string) then Some (changed get_labels)
  else if decide (s = "AnnotationChanged"%string) then Some (changed get_annotations)
  else None.
(** predicate.go:156-169: what a boolean operator makes of its arguments. *)
Definition bool_predicate (k : string) (l : list predicate) : option predicate :=
  if decide (k = "And"%string) then Some (p_and l)
  else if decide (k = "Or"%string) then Some (p_or l)
  else if decide (k = "Not"%string) then match l with [p] => Some (p_not p) | _ => None end
  else None.
(** predicate.go:84-93 ToPredicate, 141-173 BoolPredicate.ToPredicate *)
Fixpoint to_predicate (p : pred) : option predicate :=
  match p with
  | Pred (Some s) _ => basic_predicate s
  | Pred None (Some [(k, ps)]) =>
      l ← (fix go (ps : list pred) : option (list predicate) :=
             match ps with [] => Some [] | p :: ps => f ← to_predicate p; l ← go ps; Some (f :: l) end) ps;
      bool_predicate k l
  | _ => None
  end.
(** predicate.go:96-104 MarshalJSON *)
Fixpoint marshal (p : pred) : option json :=
  match p with
  | Pred (Some s) _ => Some (JStr s)
  | Pred None (Some m) =>
      m ← (fix go (m : list (string * list pred)) : option jobj :=
             match m with
             | [] => Some []
             | (k, ps) :: m =>
                 l ← (fix gol (ps : list pred) : option (list json) :=
                        match ps with [] => Some [] | p :: ps => v ← marshal p; l ← gol ps; Some (v :: l) end) ps;
                 m' ← go m; Some ((k, JList l) :: m')
             end) m;
      Some (JMap m)
  | Pred None None => None
  end.
(** predicate.go:107-125 UnmarshalJSON.  A null decodes into the empty string,
    or into a nil list (encoding/json, recalled). *)
Fixpoint unmarshal (v : json) : option pred :=
  match v with
  | JStr s => Some (Pred (Some s) None)
  | JNull => Some (Pred (Some EmptyString) None)
  | JMap m =>
      m ← (fix go (m : jobj) : option (list (string * list pred)) :=
             match m with
             | [] => Some []
             | (k, v) :: m =>
                 ps ← match v with
                      | JNull => Some []
                      | JList l =>
                          (fix gol (l : list json) : option (list pred) :=
                             match l with [] => Some [] | v :: l => p ← unmarshal v; ps ← gol l; Some (p :: ps) end) l
                      | _ => None
                      end;
                 m' ← go m; Some ((k, ps) :: m')
             end) m;
      Some (Pred None (Some m))
  | _ => None
  end.

(** *** source.go and reconciler.go *)

(** source.go:92-127 GetSource: the predicates of a watch source; the label
    selector is a function on labels (apimachinery). *)
Definition source_predicates (p : option pred) (selector : option (option (list (string * string)) -> bool)) (namespace : option string) : option (list predicate) :=
  l1 ← match p with None => Some [] | Some p => f ← to_predicate p; Some [f] end;
  let l2 := match selector with None => [] | Some f => [p_funcs (fun m => f (get_labels m))] end in
  let l3 := match namespace with None => [] | Some ns => [p_funcs (fun m => bool_decide (get_namespace m = ns))] end in
  Some (l1 ++ l2 ++ l3).
(** reconciler.go:90-135 Create, Update, Delete, Generic: the event type and the
    object of the request. *)
Definition request_of (e : wevent) : option delta :=
  match e with
  | WCreate m => Some (Delta Added m)
  | WUpdate _ (Some m) => Some (Delta Updated m)
  | WUpdate _ None => None
  | WDelete m => Some (Delta Deleted m)
  | WGeneric _ => None
  end.
(** The requests of a source for a sequence of informer events. *)
Definition requests (ps : list predicate) (evs : list wevent) : list delta :=
  omap request_of (List.filter (fun e => forallb (fun p => p e) ps) evs).
