(** Specification vocabulary for the OpenAPI definitions. *)
From Verif Require Import OpenModel GroupSpec RegistrySpec.

(** The calls that register and unregister kinds. *)
Definition call_of (a : oact) : option rcall :=
  match a with ORegister g l => Some (RegisterGroup g l) | OUnregister g => Some (UnregisterGroup g) | _ => None end.
Definition calls_in (l : list oact) : list rcall := omap call_of l.
(** The view kinds that are registered after the calls. *)
Definition current (cs : list rcall) (x : gvk) : Prop := exists g, view_group_name g /\ x ∈ latest cs g.
(** [d] has a definition for the kind. *)
Definition defined_as (d : odefs) (x : gvk) (n : string) : Prop := exists D, d !! n = Some D /\ od_gvk D = Some x.
(** The definitions [d] have, next to the common ones, one for each kind of [K] and one
    for its list, whose items are of that kind; and no others.  Of the common ones
    nothing is lost. *)
Record describes (base : odefs) (K : gvk -> Prop) (d : odefs) : Prop := {
  de_kind : forall x, K x -> exists n D, d !! n = Some D /\ od_gvk D = Some x /\ od_keeps D = true;
  de_list : forall x, K x -> exists n D n', d !! n = Some D /\ od_gvk D = Some (list_gvk x) /\ od_items D = Some n' /\ n' ∈ od_needs D /\ defined_as d x n';
  de_only : forall n x, defined_as d x n -> defined_as base x n \/ K x \/ exists y, K y /\ x = list_gvk y;
  de_base : forall n D, base !! n = Some D -> d !! n = Some D \/ n = unstruct_name \/ n = unstruct_list_name
              \/ exists x, K x /\ (defined_as d x n \/ defined_as d (list_gvk x) n) }.
(** Go goes through all registered kinds. *)
Definition iterates (iter : nat -> gmap string (list gvk) -> list gvk) : Prop :=
  forall k r x, x ∈ iter k r <-> exists g l, r !! g = Some l /\ x ∈ l.
(** No request is between finding the cache empty and storing. *)
Definition idle (s : oserver) : Prop := forall k r, os_reqs s !! k = Some r -> match r with Missed _ | Made _ _ => False | _ => True end.
(** Kinds are registered only then. *)
Definition undisturbed (run : list oact -> oserver) (l : list oact) : Prop :=
  forall pre a post, l = pre ++ a :: post -> is_Some (call_of a) -> idle (run pre).
Definition dotless (cs : list rcall) : Prop := forall x, ever cs x -> no_dot (gvk_kind x).
