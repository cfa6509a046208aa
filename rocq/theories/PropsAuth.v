(** Properties C35 to C37: access control. *)
From Coq Require Import Ascii.
From stdpp Require Import strings list.
From Verif Require Import AuthModel AuthSpec AuthProofs.

(** A user and requests for the examples; here the rules travel as they are. *)
Definition reader : rule := Rule ["get"; "list"] ["op.view.dcontroller.io"] ["podview*"] ["a"; "b"].
Definition writer : rule := Rule ["*"] ["*.view.dcontroller.io"] ["svcview"] [].
Definition ask (c : claims) (verb group resource name ns : string) : request (list rule) :=
  Request (Some (user_of_claims (fun l => l) c)) true verb group resource "" name ns.
Definition allowed (q : request (list rule)) : bool := authorize Some q.

(** ** C35 *)

(** The decision for a token with the given namespaces and rules. *)
Theorem C35_decision : forall {T} (dec : T -> option (list rule)) (enc : list rule -> T) c (q : request T),
  (forall l, dec (enc l) = Some l) -> q_user q = Some (user_of_claims enc c) -> q_resource_request q = true ->
  authorize dec q = true <-> admits (c_namespaces c) (q_namespace q) /\ permits (c_rules c) (q_verb q) (q_group q) (q_resource q) (q_name q).
Proof. exact @claims_spec. Qed.
Print Assumptions C35_decision.

(** The decision for any user information, as other authenticators may supply
    it: no user is denied, text that does not decode is denied, requests that
    are not about resources are allowed. *)
Theorem C35_any_user : forall {T} (dec : T -> option (list rule)) (q : request T), authorize dec q = true <->
  exists u, q_user q = Some u /\
    (q_resource_request q = true -> admits (u_namespaces u) (q_namespace q)
      /\ match u_rules u with [] => True | t :: _ => exists rules, dec t = Some rules
           /\ exists r, r ∈ rules /\ grants r (q_verb q) (q_group q) (q_resource q) (q_name q) end).
Proof. exact @authorize_spec. Qed.
Print Assumptions C35_any_user.

(** More rules or namespaces (where there were some) never revoke access. *)
Theorem C35_monotone : forall {T} (dec : T -> option (list rule)) (enc : list rule -> T), (forall l, dec (enc l) = Some l) ->
  forall c c' (q q' : request T), q_user q = Some (user_of_claims enc c) -> q_user q' = Some (user_of_claims enc c') ->
  q_resource_request q = true -> q_resource_request q' = true -> q_verb q = q_verb q' -> q_group q = q_group q' -> q_resource q = q_resource q' ->
  q_name q = q_name q' -> q_namespace q = q_namespace q' ->
  (c_namespaces c = c_namespaces c' \/ c_namespaces c <> [] /\ c_namespaces c ⊆ c_namespaces c') ->
  (c_rules c = c_rules c' \/ c_rules c <> [] /\ c_rules c ⊆ c_rules c') ->
  authorize dec q = true -> authorize dec q' = true.
Proof. exact @authorize_mono. Qed.
Print Assumptions C35_monotone.

(** With namespaces listed and no asterisk among them, a request succeeds only
    in one of them; in particular none over all namespaces. *)
Theorem C35_confined : forall {T} (dec : T -> option (list rule)) (enc : list rule -> T), (forall l, dec (enc l) = Some l) ->
  forall c (q : request T), q_user q = Some (user_of_claims enc c) -> q_resource_request q = true ->
  c_namespaces c <> [] -> "*"%string ∉ c_namespaces c -> authorize dec q = true -> q_namespace q <> ""%string /\ q_namespace q ∈ c_namespaces c.
Proof. exact @confined. Qed.
Print Assumptions C35_confined.

Definition ex_claims : claims := Claims ["team-a"; "team-b"] [reader; writer].
Example ex_C35 :
  allowed (ask ex_claims "get" "op.view.dcontroller.io" "podviews" "a" "team-a") = true
  /\ allowed (ask ex_claims "get" "op.view.dcontroller.io" "podviews" "c" "team-a") = false
  /\ allowed (ask ex_claims "get" "op.view.dcontroller.io" "podviews" "a" "team-c") = false
  /\ allowed (ask ex_claims "get" "op.view.dcontroller.io" "podviews" "a" "") = false
  /\ allowed (ask ex_claims "delete" "op.view.dcontroller.io" "podviews" "a" "team-a") = false
  /\ allowed (ask ex_claims "delete" "other.view.dcontroller.io" "svcview" "x" "team-b") = true
  /\ allowed (ask (Claims ["team-a"; "*"] [writer]) "list" "x.view.dcontroller.io" "svcview" "" "") = true.
Proof. vm_compute. auto 10. Qed.

(** Refuted: the names in a rule do not restrict every use of the rule.  A user
    who may read only the objects "a" and "b" may list all of them (Kubernetes
    denies this), and a request without a name passes. *)
Theorem C35_names_refuted :
  allowed (ask ex_claims "get" "op.view.dcontroller.io" "podviews" "c" "team-a") = false
  /\ allowed (ask ex_claims "list" "op.view.dcontroller.io" "podviews" "" "team-a") = true
  /\ allowed (ask ex_claims "get" "op.view.dcontroller.io" "podviews" "" "team-a") = true.
Proof. vm_compute. auto. Qed.
Print Assumptions C35_names_refuted.

(** Refuted: a rule for a resource also grants all its subresources. *)
Theorem C35_subresource_refuted : forall {T} (dec : T -> option (list rule)) u res verb g r s s' n ns,
  authorize dec (Request u res verb g r s n ns) = authorize dec (Request u res verb g r s' n ns).
Proof. reflexivity. Qed.
Print Assumptions C35_subresource_refuted.

(** ** C36 *)

(** One asterisk: exactly the values with the given beginning and end. *)
Theorem C36_single_star : forall a b v, star_free a -> star_free b -> matches [a +:+ "*" +:+ b] v = true <-> starts_with v a /\ ends_with v b.
Proof. exact single_star. Qed.
Print Assumptions C36_single_star.
(** No asterisk: only itself. *)
Theorem C36_no_star : forall p v, star_free p -> matches [p] v = true <-> v = p.
Proof. exact no_star. Qed.
Print Assumptions C36_no_star.
(** A list of patterns, with any number of asterisks. *)
Theorem C36_any : forall ps v, matches ps v = true <-> some_accepts ps v.
Proof. exact matches_spec. Qed.
Print Assumptions C36_any.
(** For values that are long enough the asterisk stands for any string. *)
Theorem C36_glob : forall a b v, (String.length a + String.length b <= String.length v)%nat -> starts_with v a -> ends_with v b -> glob a b v.
Proof. exact glob_split. Qed.
Print Assumptions C36_glob.

Example ex_C36 : star_free "kube-" /\ star_free ".io" /\ matches ["kube-*.io"] "kube-x.io" = true /\ matches ["kube-*.io"] "kube-x.com" = false
  /\ matches ["core"] "core" = true /\ matches ["core"] "corex" = false /\ matches ["*.io"] "x.io" = true /\ matches ["kube-*"] "kube-" = true.
Proof. vm_compute. auto 10. Qed.

(** Refuted for shorter values: beginning and end may overlap.  Refuted for two
    asterisks: only one of them is special, so that "*a*" does not mean
    "contains a". *)
Theorem C36_glob_refuted : matches ["ab*ba"] "aba" = true /\ ~ glob "ab" "ba" "aba"
  /\ matches ["*a*"] "bab" = false /\ matches ["*a*"] "ba*" = true.
Proof.
  split; [reflexivity|]. split; [|split; reflexivity].
  intros [x E]. pose proof (f_equal String.length E) as EL. rewrite !app_length_s in EL. simpl in EL. lia.
Qed.
Print Assumptions C36_glob_refuted.

(** ** C37 *)

(** As long as a rule is left, removing rules never grants access.  Missing from
    the full statement: see below. *)
Theorem C37_removal_partial : forall {T} (dec : T -> option (list rule)) (enc : list rule -> T), (forall l, dec (enc l) = Some l) ->
  forall c c' (q q' : request T), q_user q = Some (user_of_claims enc c) -> q_user q' = Some (user_of_claims enc c') ->
  q_resource_request q = true -> q_resource_request q' = true -> q_verb q = q_verb q' -> q_group q = q_group q' -> q_resource q = q_resource q' ->
  q_name q = q_name q' -> q_namespace q = q_namespace q' ->
  c_namespaces c = c_namespaces c' -> c_rules c <> [] -> c_rules c ⊆ c_rules c' ->
  authorize dec q' = false -> authorize dec q = false.
Proof.
  intros T dec enc Hrt c c' q q' U U' R R' E1 E2 E3 E4 E5 HN Hne HR H. destruct (authorize dec q) eqn:E; [|done].
  rewrite (authorize_mono dec enc Hrt c c' q q' U U' R R' E1 E2 E3 E4 E5 (or_introl HN) (or_intror (conj Hne HR)) E) in H. done.
Qed.
Print Assumptions C37_removal_partial.

(** Refuted: a user without rules (and namespaces) may do everything; removing
    the last rule grants access. *)
Theorem C37_default_refuted : forall {T} (dec : T -> option (list rule)) (enc : list rule -> T), (forall l, dec (enc l) = Some l) ->
  forall c (q : request T), q_user q = Some (user_of_claims enc c) -> q_resource_request q = true -> c_namespaces c = [] -> c_rules c = [] ->
  authorize dec q = true.
Proof. exact @no_rules. Qed.
Print Assumptions C37_default_refuted.

Example ex_C37 :
  allowed (ask (Claims [] [reader; writer]) "delete" "op.view.dcontroller.io" "podviews" "a" "x") = false
  /\ allowed (ask (Claims [] [reader]) "delete" "op.view.dcontroller.io" "podviews" "a" "x") = false
  /\ allowed (ask (Claims [] []) "delete" "op.view.dcontroller.io" "podviews" "a" "x") = true.
Proof. vm_compute. auto. Qed.
