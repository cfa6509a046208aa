(** A small instance of [Jwt] for the examples: a token is the bits of the key, the
    method and the claims. *)
From Coq Require Import Ascii ZArith.
From stdpp Require Import strings list gmap countable.
From Verif Require Import AuthModel TokenModel TokenSpec.

#[global] Instance rule_eq : EqDecision rule.
Proof. solve_decision. Defined.
#[global] Instance rule_countable : Countable rule.
Proof.
  refine (inj_countable' (fun r => (r_verbs r, r_groups r, r_resources r, r_names r)) (fun '(a, b, c, d) => Rule a b c d) _). by intros [].
Defined.
#[global] Instance tc_eq : EqDecision token_claims.
Proof. solve_decision. Defined.
#[global] Instance tc_countable : Countable token_claims.
Proof.
  refine (inj_countable' (fun c => (tc_user c, tc_namespaces c, tc_rules c, tc_exp c, tc_nbf c, tc_iat c, tc_iss c)) (fun '(a, b, c, d, e, f, g) => TokenClaims a b c d e f g) _). by intros [].
Defined.

Fixpoint bits (p : positive) : string :=
  match p with xH => "!" | xO p => String "0" (bits p) | xI p => String "1" (bits p) end.
Fixpoint unbits (s : string) : positive :=
  match s with
  | EmptyString => xH
  | String c s => if Ascii.eqb c "0" then xO (unbits s) else if Ascii.eqb c "1" then xI (unbits s) else xH
  end.
Lemma unbits_bits p : unbits (bits p) = p.
Proof. induction p as [p IH|p IH|]; cbn; by rewrite ?IH. Qed.
Lemma bits_some p : bits p <> EmptyString.
Proof. by destruct p. Qed.

(** A token by any method, for the examples. *)
Definition toy_token (key : positive) (alg : string) (c : token_claims) : string := bits (encode (key, alg, c)).
#[global] Instance toy_jwt : Jwt := {|
  skey := positive; pkey := positive; pub := fun k => k;
  jwt_sign := fun k c => toy_token k "RS256" c;
  jwt_read := fun t => '(_, alg, c) ← (decode (unbits t) : option (positive * string * token_claims)); Some (alg, c);
  jwt_verify := fun p t => match (decode (unbits t) : option (positive * string * token_claims)) with Some (k, _, _) => Pos.eqb k p | None => false end;
  rules_read := fun s => if decide (s = "[]"%string) then Some [] else decode (unbits s); rules_text := fun l => bits (encode l);
  key_pem := bits; cert_pem := fun _ k => bits k; key_read := fun s => Some (unbits s); cert_read := fun s => Some (unbits s);
  text_ok := fun _ => True |}.
Lemma bits_not_list p : bits p <> "[]"%string.
Proof. by destruct p. Qed.
Lemma all_ok {A} (P : A -> Prop) l : (forall a, P a) -> Forall P l.
Proof. intros H. induction l; constructor; auto. Qed.
Lemma toy_rule_ok r : rule_text_ok r.
Proof. split_and!; by apply all_ok. Qed.
Lemma toy_laws : jwt_laws.
Proof.
  split; cbn; unfold toy_token.
  - intros k c _. by rewrite unbits_bits, decode_encode.
  - intros k c. rewrite unbits_bits, decode_encode. apply Pos.eqb_refl.
  - intros k c. apply bits_some.
  - intros t alg c _. split_and!; [done|by apply all_ok|apply all_ok, toy_rule_ok|done].
  - intros l _. rewrite decide_False by apply bits_not_list. by rewrite unbits_bits, decode_encode.
  - intros s l _. apply all_ok, toy_rule_ok.
  - intros k. by rewrite unbits_bits.
  - intros _ k. by rewrite unbits_bits.
  - done.
Qed.
