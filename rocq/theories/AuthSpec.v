(** Specification of access control: what the documentation of the rules says. *)
From Verif Require Import AuthModel.
From Coq Require Import Ascii.
From stdpp Require Import strings list.

Definition starts_with (v p : string) : Prop := exists x, v = p +:+ x.
Definition ends_with (v s : string) : Prop := exists x, v = x +:+ s.
Definition star_free (s : string) : Prop := has_star s = false.

(** A pattern accepts a value: itself; any value for an asterisk alone; the
    values with the given ending, beginning, or both.  Only one asterisk is
    special: the first if the pattern begins with it, else the last if the
    pattern ends with it, else the first. *)
Definition accepts (p v : string) : Prop :=
  p = v
  \/ (exists s, p = "*" +:+ s /\ ends_with v s)
  \/ (~ starts_with p "*" /\ exists s, p = s +:+ "*" /\ starts_with v s)
  \/ (~ starts_with p "*" /\ ~ ends_with p "*" /\ exists a b, star_free a /\ p = a +:+ "*" +:+ b /\ starts_with v a /\ ends_with v b).
Definition some_accepts (ps : list string) (v : string) : Prop := exists p, p ∈ ps /\ accepts p v.

(** Verbs for which the names in a rule do not count. *)
Definition on_collection (verb : string) : Prop := verb = "list"%string \/ verb = "watch"%string \/ verb = "create"%string \/ verb = "deletecollection"%string.
(** A rule grants an action. *)
Definition grants (r : rule) (verb group resource name : string) : Prop :=
  some_accepts (r_verbs r) verb /\ some_accepts (r_groups r) group /\ some_accepts (r_resources r) resource
  /\ (on_collection verb \/ r_names r = [] \/ name = ""%string \/ some_accepts (r_names r) name).
(** The namespaces of a token admit a namespace ("" for all of them). *)
Definition admits (namespaces : list string) (ns : string) : Prop :=
  namespaces = [] \/ "*"%string ∈ namespaces \/ (ns <> ""%string /\ ns ∈ namespaces).
(** The rules of a token permit an action; no rules permit everything. *)
Definition permits (rules : list rule) (verb group resource name : string) : Prop :=
  rules = [] \/ exists r, r ∈ rules /\ grants r verb group resource name.

(** The glob: the asterisk stands for any string. *)
Definition glob (a b v : string) : Prop := exists x, v = a +:+ x +:+ b.
