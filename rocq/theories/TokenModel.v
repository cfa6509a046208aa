(** Model of the tokens with which users identify themselves to the API server:
    pkg/auth/token.go, authenticator.go and kubeconfig.go, and the commands of
    dctl that make and show them (main.go).

    Simplifications:
    - Of golang-jwt, encoding/json, crypto/rsa, crypto/x509 and encoding/pem only
      what the code asks of them is here, as the fields of [Jwt]; [jwt_laws] says
      what they are relied on for.
    - A time is a number of nanoseconds since 1970.
    - Private keys of unusable size, for which signing fails, are left out. *)
From Coq Require Import Ascii ZArith.
From stdpp Require Import strings list gmap.
From Verif Require Export AuthModel.

(** authenticator.go:21-27 Claims with jwt.RegisteredClaims; times are in seconds, and
    a missing one is nil. *)
Record token_claims := TokenClaims {
  tc_user : string; tc_namespaces : list string; tc_rules : list rule;
  tc_exp : option Z; tc_nbf : option Z; tc_iat : option Z; tc_iss : string }.

(** *** What the libraries do *)
Class Jwt := {
  skey : Type; pkey : Type;
  (** the public key that belongs to a private key *)
  pub : skey -> pkey;
  (** jwt.NewWithClaims (SigningMethodRS256, claims).SignedString *)
  jwt_sign : skey -> token_claims -> string;
  (** Parser.ParseUnverified: the signing method that the header names, if there is
      one by that name, and the claims *)
  jwt_read : string -> option (string * token_claims);
  (** the signature is right for the signing method in the header and the key *)
  jwt_verify : pkey -> string -> bool;
  (** the JSON text of a list of rules (json.Unmarshal, json.Marshal) *)
  rules_read : string -> option (list rule);
  rules_text : list rule -> string;
  (** pem and x509: the content of a key file and of a certificate file *)
  key_pem : skey -> string;
  cert_pem : list string -> skey -> string;
  key_read : string -> option skey;
  cert_read : string -> option pkey;
  (** texts that JSON carries unchanged (valid UTF-8) *)
  text_ok : string -> Prop }.

(** The file system: the content of a file and its permissions. *)
Notation files := (gmap string (string * N)).

Section token.
Context `{J : Jwt}.

(** *** token.go and authenticator.go *)
Definition second : Z := 1000000000.
(** jwt.NewNumericDate (recalled): whole seconds *)
Definition numeric_date (t : Z) : Z := (t / second)%Z.
(** token.go:30-46 GenerateToken *)
Definition claims_for (now : Z) (user : string) (namespaces : list string) (rules : list rule) (expiry : Z) : token_claims :=
  TokenClaims user namespaces rules (Some (numeric_date (now + expiry))) (Some (numeric_date now)) (Some (numeric_date now)) "dcontroller".
Definition generate_token (k : skey) (now : Z) (user : string) (namespaces : list string) (rules : list rule) (expiry : Z) : string :=
  jwt_sign k (claims_for now user namespaces rules expiry).

(** jwt.Validator.Validate with no options (recalled): only the times are looked at,
    and only if they are there *)
Definition claims_valid (now : Z) (c : token_claims) : bool :=
  match tc_exp c with Some e => (now <? e * second)%Z | None => true end
  && match tc_nbf c with Some n => (n * second <=? now)%Z | None => true end.
(** the methods of type jwt.SigningMethodRSA *)
Definition rsa_method (alg : string) : bool := bool_decide (alg ∈ ["RS256"; "RS384"; "RS512"]%string).
(** jwt.ParseWithClaims (recalled); [key] is the key function *)
Definition parse_with_claims (key : string -> option pkey) (now : Z) (t : string) : option token_claims :=
  match jwt_read t with
  | None => None
  | Some (alg, c) =>
      match key alg with
      | None => None
      | Some p => if jwt_verify p t && claims_valid now c then Some c else None
      end
  end.
(** strings.TrimPrefix *)
Fixpoint drop_prefix (p s : string) : string :=
  match p, s with String _ p, String _ s => drop_prefix p s | _, _ => s end.
(** authenticator.go:36-84 AuthenticateRequest: no header, an error, or a user.  [header]
    is empty when it is missing. *)
Inductive authn := NoToken | BadToken | Known (name : string) (u : user string).
Definition claims_of (c : token_claims) : claims := Claims (tc_namespaces c) (tc_rules c).
Definition authenticate (p : pkey) (now : Z) (header : string) : authn :=
  if decide (header = EmptyString) then NoToken
  else if negb (has_prefix header "Bearer ") then BadToken
  else match parse_with_claims (fun alg => if rsa_method alg then Some p else None) now (drop_prefix "Bearer " header) with
       | None => BadToken
       | Some c => Known (tc_user c) (user_of_claims rules_text (claims_of c))
       end.

(** *** kubeconfig.go *)
(** clientcmdapi.Config, the parts that matter here: servers, tokens, contexts (cluster
    and user) and the current context *)
Record kubeconfig := Kubeconfig {
  kc_clusters : gmap string (string * bool); kc_users : gmap string string;
  kc_contexts : gmap string (string * string * string); kc_current : string }.
(** kubeconfig.go:32-64 GenerateKubeconfig *)
Definition generate_kubeconfig (addr user token cluster context namespace : string) (insecure http : bool) : kubeconfig :=
  Kubeconfig {[ cluster := ((if http then "http://" else "https://") +:+ addr, insecure) ]} {[ user := token ]}
    {[ context := (cluster, user, namespace) ]} context.
(** kubeconfig.go:68-92 ExtractTokenFromKubeconfig, after the file has been read *)
Definition extract_token (k : kubeconfig) : option string :=
  if decide (kc_current k = EmptyString) then None
  else match kc_contexts k !! kc_current k with
       | None => None
       | Some (_, user, _) =>
           match kc_users k !! user with
           | None => None
           | Some t => if decide (t = EmptyString) then None else Some t
           end
       end.

(** *** main.go *)
Definition comma : ascii := ","%char.
(** strings.Split (s, ",") *)
Fixpoint split_comma (s : string) : list string :=
  match s with
  | EmptyString => [EmptyString]
  | String c s =>
      if decide (c = comma) then EmptyString :: split_comma s
      else match split_comma s with p :: ps => String c p :: ps | [] => [String c EmptyString] end
  end.
(** unicode.IsSpace, of ASCII *)
Definition is_space (c : ascii) : bool := bool_decide (c ∈ [" "; "009"; "010"; "011"; "012"; "013"]%char).
Fixpoint trim_left (s : string) : string :=
  match s with String c t => if is_space c then trim_left t else s | EmptyString => s end.
Fixpoint trim_right (s : string) : string :=
  match s with
  | EmptyString => EmptyString
  | String c t => match trim_right t with EmptyString => if is_space c then EmptyString else String c EmptyString | t' => String c t' end
  end.
(** strings.TrimSpace *)
Definition trim_space (s : string) : string := trim_right (trim_left s).
(** main.go:720-732 parseCommaSeparated *)
Definition parse_comma (s : string) : list string :=
  List.filter (fun p => negb (String.eqb p EmptyString)) (map trim_space (split_comma s)).

(** os.WriteFile (recalled): permissions are for new files only *)
Definition write_file (fs : files) (path content : string) (perm : N) : files :=
  <[path := (content, match fs !! path with Some (_, p) => p | None => perm end)]> fs.
(** token.go:136-144 WriteCertAndKey; 0644 is 420 and 0600 is 384 *)
Definition write_cert_and_key (fs : files) (cert_file key_file cert key : string) : files :=
  write_file (write_file fs cert_file cert 420) key_file key 384.
(** main.go:144-163 runGenerateKeys, for the key that was drawn *)
Definition run_generate_keys (fs : files) (hostnames : list string) (key_file cert_file : string) (k : skey) : files :=
  write_cert_and_key fs key_file cert_file (key_pem k) (cert_pem hostnames k).
(** token.go:148-158, 162-192 LoadPrivateKey and LoadPublicKey *)
Definition load_private_key (fs : files) (path : string) : option skey := f ← fs !! path; key_read f.1.
Definition load_public_key (fs : files) (path : string) : option pkey := f ← fs !! path; cert_read f.1.

(** main.go:327-340 generateConfigConfig *)
Record gc_flags := Flags {
  f_user : string; f_namespaces : string; f_rules : string; f_rules_file : string; f_names : string;
  f_expiry : Z; f_key_file : string; f_server : string; f_namespace : string; f_insecure : bool; f_http : bool }.
(** main.go:415-433: the names go into the last rule *)
Fixpoint set_last_names (rules : list rule) (names : list string) : list rule :=
  match rules with
  | [] => []
  | [r] => [Rule (r_verbs r) (r_groups r) (r_resources r) names]
  | r :: rules => r :: set_last_names rules names
  end.
(** main.go:392-433: the namespaces and rules that the flags ask for; the files are
    there to be read. *)
Definition asked_namespaces (f : gc_flags) : list string :=
  if decide (f_namespaces f = EmptyString) then [] else parse_comma (f_namespaces f).
Definition asked_rules (fs : files) (f : gc_flags) : option (list rule) :=
  rules ← (if decide (f_rules_file f <> EmptyString) then d ← fs !! f_rules_file f; rules_read d.1
           else if decide (f_rules f <> EmptyString) then rules_read (f_rules f) else Some []);
  Some (if decide (f_names f = EmptyString) then rules else set_last_names rules (parse_comma (f_names f))).
(** main.go:391-504 runGenerateConfig *)
Definition run_generate_config (fs : files) (now : Z) (f : gc_flags) : option kubeconfig :=
  rules ← asked_rules fs f;
  k ← load_private_key fs (f_key_file f);
  Some (generate_kubeconfig (f_server f) (f_user f) (generate_token k now (f_user f) (asked_namespaces f) rules (f_expiry f))
          "dcontroller" "dcontroller" (f_namespace f) (f_insecure f) (f_http f)).
(** main.go:538-612 runGetConfig: the claims it shows, if it does not fail before *)
Definition run_get_config (fs : files) (now : Z) (k : kubeconfig) (cert_file : string) : option token_claims :=
  t ← extract_token k;
  p ← load_public_key fs cert_file;
  parse_with_claims (fun _ => Some p) now t.
End token.
