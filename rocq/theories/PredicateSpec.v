(** Specification: predicates as boolean formulas; the objects that a source selects. *)
From Verif Require Import PredicateModel ZSetSpec OpsSpec GatherSpec ExecSpec JsonSpec CleanSpec PipelineSpec.

Inductive formula :=
  | FGeneration | FVersion | FLabels | FAnnotations
  | FAnd (l : list formula) | FOr (l : list formula) | FNot (f : formula).

(** The attribute differs between the two objects of an update; other events
    always satisfy it. *)
Definition differs {A} (f : jobj -> A) (e : wevent) : Prop :=
  match e with
  | WUpdate (Some old) (Some new) => f old <> f new
  | WUpdate _ _ => False
  | _ => True
  end.
Fixpoint holds (e : wevent) (f : formula) : Prop :=
  match f with
  | FGeneration => differs get_generation e
  | FVersion => differs get_version e
  | FLabels => differs get_labels e
  | FAnnotations => differs get_annotations e
  | FAnd l => (fix all l := match l with [] => True | f :: l => holds e f /\ all l end) l
  | FOr l => (fix any l := match l with [] => False | f :: l => holds e f \/ any l end) l
  | FNot f => ~ holds e f
  end.
(** The formula that a predicate tree is written for. *)
Inductive denotes : pred -> formula -> Prop :=
  | d_generation m : denotes (Pred (Some "GenerationChanged"%string) m) FGeneration
  | d_version m : denotes (Pred (Some "ResourceVersionChanged"%string) m) FVersion
  | d_labels m : denotes (Pred (Some "LabelChanged"%string) m) FLabels
  | d_annotations m : denotes (Pred (Some "AnnotationChanged"%string) m) FAnnotations
  | d_and ps l : denote_all ps l -> denotes (Pred None (Some [("And"%string, ps)])) (FAnd l)
  | d_or ps l : denote_all ps l -> denotes (Pred None (Some [("Or"%string, ps)])) (FOr l)
  | d_not p f : denotes p f -> denotes (Pred None (Some [("Not"%string, [p])])) (FNot f)
with denote_all : list pred -> list formula -> Prop :=
  | da_nil : denote_all [] []
  | da_cons p f ps l : denotes p f -> denote_all ps l -> denote_all (p :: ps) (f :: l).

(** Exactly one of the two pointers is set, everywhere. *)
Inductive plain_pred : pred -> Prop :=
  | pp_basic s : plain_pred (Pred (Some s) None)
  | pp_bool m : (forall k ps p, In (k, ps) m -> In p ps -> plain_pred p) -> plain_pred (Pred None (Some m)).

(** ** Sources *)

(** A sequence of informer events that starts with the objects [w]: an object is
    created once, updated from what it was, and deleted as it last was. *)
Fixpoint informer (w : world) (evs : list wevent) : Prop :=
  match evs with
  | [] => True
  | e :: evs =>
      match e with
      | WCreate m => w !! source_id m = None /\ informer (<[source_id m := stripped m]> w) evs
      | WUpdate (Some old) (Some m) => source_id old = source_id m /\ w !! source_id m = Some (stripped old) /\ informer (<[source_id m := stripped m]> w) evs
      | WUpdate _ _ => False
      | WDelete m => w !! source_id m = Some (stripped m) /\ informer (delete (source_id m) w) evs
      | WGeneric _ => informer w evs
      end
  end.
(** The objects after the events. *)
Definition objects (evs : list wevent) : world := after (omap request_of evs).
(** No update changes what the filter says about the object. *)
Definition stable (sel : jobj -> bool) (evs : list wevent) : Prop :=
  forall old m, In (WUpdate (Some old) (Some m)) evs -> sel old = sel m.
(** The objects that a source asks for. *)
Definition selected (selector : option (option (list (string * string)) -> bool)) (namespace : option string) (m : jobj) : bool :=
  match selector with None => true | Some f => f (get_labels m) end && match namespace with None => true | Some ns => bool_decide (get_namespace m = ns) end.
(** The object that an event is about. *)
Definition subject (e : wevent) : option jobj :=
  match e with WCreate m | WDelete m | WGeneric m => Some m | WUpdate _ m => m end.
