(** Specification vocabulary for tokens. *)
From Coq Require Import Ascii ZArith.
From stdpp Require Import strings list gmap.
From Verif Require Import AuthModel AuthSpec TokenModel.

Section spec.
Context `{J : Jwt}.
(** Texts that JSON carries unchanged, in all the claims. *)
Definition rule_text_ok (r : rule) : Prop :=
  Forall text_ok (r_verbs r) /\ Forall text_ok (r_groups r) /\ Forall text_ok (r_resources r) /\ Forall text_ok (r_names r).
Definition claims_text_ok (c : token_claims) : Prop :=
  text_ok (tc_user c) /\ Forall text_ok (tc_namespaces c) /\ Forall rule_text_ok (tc_rules c) /\ text_ok (tc_iss c).
(** What the libraries are relied on for. *)
Record jwt_laws : Prop := {
  law_read : forall k c, claims_text_ok c -> jwt_read (jwt_sign k c) = Some ("RS256"%string, c);
  law_verify : forall k c, jwt_verify (pub k) (jwt_sign k c) = true;
  law_some : forall k c, jwt_sign k c <> EmptyString;
  law_read_ok : forall t alg c, jwt_read t = Some (alg, c) -> claims_text_ok c;
  law_rules : forall l, Forall rule_text_ok l -> rules_read (rules_text l) = Some l;
  law_rules_ok : forall s l, rules_read s = Some l -> Forall rule_text_ok l;
  law_key : forall k, key_read (key_pem k) = Some k;
  law_cert : forall hosts k, cert_read (cert_pem hosts k) = Some (pub k);
  law_own : text_ok "dcontroller" }.

(** The token is one that the server should honour now: an RSA method, the right
    signature, and the time within the limits that it sets. *)
Definition honoured (p : pkey) (now : Z) (t : string) (c : token_claims) : Prop :=
  exists alg, jwt_read t = Some (alg, c) /\ (alg = "RS256" \/ alg = "RS384" \/ alg = "RS512")%string
  /\ jwt_verify p t = true
  /\ (forall e, tc_exp c = Some e -> (now < e * 1000000000)%Z) /\ (forall n, tc_nbf c = Some n -> (n * 1000000000 <= now)%Z).
(** The user may do what these namespaces and rules say, and no more. *)
Definition has_rights (u : user string) (namespaces : list string) (rules : list rule) : Prop :=
  forall verb group resource sub name ns,
    authorize rules_read (Request (Some u) true verb group resource sub name ns) = true
    <-> admits namespaces ns /\ permits rules verb group resource name.
End spec.

(** *** Lists on the command line *)
Definition blank (s : string) : Prop := forall c, c ∈ String.list_ascii_of_string s -> is_space c = true.
Definition without_comma (s : string) : Prop := comma ∉ String.list_ascii_of_string s.
(** [t] is [s] without the white space around it. *)
Definition trimmed (s t : string) : Prop :=
  exists a b, s = (a +:+ t +:+ b)%string /\ blank a /\ blank b
  /\ (forall c r, t = String c r -> is_space c = false) /\ (forall r c, t = (r +:+ String c EmptyString)%string -> is_space c = false).
(** The items of a list with commas: what is between them, trimmed, if anything is
    left. *)
Inductive items : list string -> list string -> Prop :=
  | items_nil : items [] []
  | items_keep p t ps l : trimmed p t -> t <> EmptyString -> items ps l -> items (p :: ps) (t :: l)
  | items_drop p ps l : blank p -> items ps l -> items (p :: ps) l.
Definition lists (s : string) (l : list string) : Prop :=
  exists ps, ps <> [] /\ Forall without_comma ps /\ s = String.concat "," ps /\ items ps l.

(** Files that others can read. *)
Definition others_can_read (perm : N) : bool := N.testbit perm 2.

(** *** What the flags of generate-config ask for *)
Section asked.
Context `{J : Jwt}.
(** The same rules, with the names in the last one. *)
Definition for_names (names : list string) (rules rules' : list rule) : Prop :=
  (rules = [] /\ rules' = [])
  \/ exists l r, rules = (l ++ [r])%list /\ rules' = (l ++ [Rule (r_verbs r) (r_groups r) (r_resources r) names])%list.
Record asks (fs : files) (f : gc_flags) (namespaces : list string) (rules : list rule) : Prop := {
  ask_namespaces : lists (f_namespaces f) namespaces;
  ask_rules : exists base,
    (f_rules_file f <> EmptyString -> exists d, fs !! f_rules_file f = Some d /\ rules_read d.1 = Some base)
    /\ (f_rules_file f = EmptyString -> f_rules f <> EmptyString -> rules_read (f_rules f) = Some base)
    /\ (f_rules_file f = EmptyString -> f_rules f = EmptyString -> base = [])
    /\ (f_names f = EmptyString -> rules = base)
    /\ (f_names f <> EmptyString -> exists names, lists (f_names f) names /\ for_names names base rules) }.
End asked.
