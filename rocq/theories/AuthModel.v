(** Model of pkg/auth: rbac.go, authorizer.go and the part of authenticator.go
    that turns token claims into user information.

    Simplifications: the JSON text in which the rules travel is an abstract type
    with a decoder and an encoder (encoding/json); signature, expiry and header
    checks of the token (golang-jwt) are in TokenModel.v; of the request attributes
    only those that the code reads, and the subresource, which it does not. *)
From Coq Require Import Ascii.
From stdpp Require Import strings list.

(** ** Go string functions *)

(** strings.HasPrefix *)
Fixpoint has_prefix (v p : string) {struct p} : bool :=
  match p, v with
  | EmptyString, _ => true
  | String c p, String d v => bool_decide (c = d) && has_prefix v p
  | String _ _, EmptyString => false
  end.
(** strings.HasSuffix *)
Fixpoint has_suffix (v s : string) : bool :=
  bool_decide (v = s) || match v with EmptyString => false | String _ v => has_suffix v s end.
Definition star : Ascii.ascii := "*"%char.
(** strings.Contains (s, "*") *)
Fixpoint has_star (s : string) : bool :=
  match s with EmptyString => false | String c s => bool_decide (c = star) || has_star s end.
(** strings.TrimPrefix (s, "*") *)
Definition trim_star_l (s : string) : string :=
  match s with String c t => if decide (c = star) then t else s | EmptyString => s end.
(** strings.TrimSuffix (s, "*") *)
Fixpoint trim_star_r (s : string) : string :=
  match s with
  | EmptyString => EmptyString
  | String c t => match t with EmptyString => if decide (c = star) then EmptyString else s | _ => String c (trim_star_r t) end
  end.
(** strings.SplitN (s, "*", 2): the parts around the first asterisk, if there is one. *)
Fixpoint split_star (s : string) : option (string * string) :=
  match s with
  | EmptyString => None
  | String c t => if decide (c = star) then Some (EmptyString, t) else
      match split_star t with Some (a, b) => Some (String c a, b) | None => None end
  end.

(** ** rbac.go *)

(** rbacv1.PolicyRule, the fields that the code reads. *)
Record rule := Rule { r_verbs : list string; r_groups : list string; r_resources : list string; r_names : list string }.

(** rbac.go:115-135 matchesWildcard *)
Definition matches_wildcard (pattern value : string) : bool :=
  if has_prefix pattern "*" then has_suffix value (trim_star_l pattern)
  else if has_suffix pattern "*" then has_prefix value (trim_star_r pattern)
  else match split_star pattern with
       | Some (a, b) => has_prefix value a && has_suffix value b
       | None => false
       end.
(** rbac.go:91-111 matches *)
Fixpoint matches (rule_values : list string) (requested : string) : bool :=
  match rule_values with
  | [] => false
  | v :: vs =>
      if decide (v = "*"%string) then true
      else if decide (v = requested) then true
      else if has_star v && matches_wildcard v requested then true
      else matches vs requested
  end.
(** rbac.go:40-45 collectionVerbs *)
Definition collection_verb (verb : string) : bool := bool_decide (verb ∈ ["list"; "watch"; "create"; "deletecollection"]%string).
(** rbac.go:50-83 ruleMatches *)
Definition rule_matches (r : rule) (verb group resource name : string) : bool :=
  if negb (matches (r_verbs r) verb) then false
  else if negb (matches (r_groups r) group) then false
  else if negb (matches (r_resources r) resource) then false
  else if collection_verb verb then true
  else match r_names r with
       | [] => true
       | _ => if decide (name = ""%string) then true else matches (r_names r) name
       end.

Section auth.
(** The JSON text of a list of rules. *)
Context {T : Type}.
Variable dec : T -> option (list rule).
Variable enc : list rule -> T.

(** user.Info: Extra["namespaces"] and Extra["rules"]; a missing entry is nil. *)
Record user := User { u_namespaces : list string; u_rules : list T }.

(** rbac.go:13-36 CheckRBACAccess *)
Definition check_rbac (u : user) (verb group resource name : string) : bool :=
  match u_rules u with
  | [] => true
  | t :: _ =>
      match dec t with
      | None => false
      | Some rules => existsb (fun r => rule_matches r verb group resource name) rules
      end
  end.

(** ** authorizer.go *)

(** authorizer.Attributes *)
Record request := Request {
  q_user : option user;
  q_resource_request : bool;
  q_verb : string; q_group : string; q_resource : string; q_subresource : string; q_name : string; q_namespace : string }.

(** authorizer.go:43-79, the namespace check *)
Definition namespace_check (u : user) (ns : string) : bool :=
  match u_namespaces u with
  | [] => true
  | l =>
      let wild := existsb (fun n => bool_decide (n = "*"%string)) l in
      if decide (ns = ""%string) then wild
      else if wild then true
      else existsb (fun n => bool_decide (n = ns)) l
  end.
(** authorizer.go:23-91 Authorize: whether the decision is Allow (else Deny). *)
Definition authorize (q : request) : bool :=
  match q_user q with
  | None => false
  | Some u =>
      if negb (q_resource_request q) then true
      else if negb (namespace_check u (q_namespace q)) then false
      else check_rbac u (q_verb q) (q_group q) (q_resource q) (q_name q)
  end.

(** ** authenticator.go *)

(** authenticator.go:21-27 Claims *)
Record claims := Claims { c_namespaces : list string; c_rules : list rule }.
(** authenticator.go:60-78: user information from validated claims; an error of
    json.Marshal is not possible for rules. *)
Definition user_of_claims (c : claims) : user :=
  User (c_namespaces c) (match c_rules c with [] => [] | _ => [enc (c_rules c)] end).
End auth.
Arguments user : clear implicits.
Arguments request : clear implicits.
