(** Property C56: tokens. *)
From Coq Require Import Ascii ZArith Lia.
From stdpp Require Import strings list gmap.
From Verif Require Import AuthModel AuthSpec AuthProofs TokenModel TokenSpec TokenProofs TestToken.

(** The server knows the user exactly when the request carries a token that it should
    honour, and the user then has the rights in the token, no more and no less.
    Without a header there is no user, and everything else is an error. *)
Theorem C56_accepts : forall `{J : Jwt}, jwt_laws -> forall p now h,
  (h = EmptyString /\ authenticate p now h = NoToken)
  \/ (exists t c u, h = ("Bearer " +:+ t)%string /\ honoured p now t c /\ authenticate p now h = Known (tc_user c) u /\ has_rights u (tc_namespaces c) (tc_rules c))
  \/ (h <> EmptyString /\ (forall t c, h = ("Bearer " +:+ t)%string -> ~ honoured p now t c) /\ authenticate p now h = BadToken).
Proof.
  intros J L p now h. destruct (authenticate p now h) as [| |n u] eqn:A.
  - left. split; [|done]. by apply authenticate_none in A.
  - right; right. split_and!; [|intros t c E H|done].
    + intros E. assert (Q := authenticate_none p now h). rewrite A in Q. destruct Q as [_ Q]. discriminate (Q E).
    + assert (Q := authenticate_spec p now h (tc_user c) (user_of_claims rules_text (claims_of c))). rewrite A in Q. destruct Q as [_ Q]. feed specialize Q; [|done]. eauto 10.
  - right; left. destruct (known_rights L p now h n u A) as (t & c & H1 & H2 & -> & H3). exists t, c, u. split_and!; done.
Qed.
Print Assumptions C56_accepts.

(** A token gives the user the rights it was made with, from when it was made until a
    second before its time is up.  The full statement leaves out the second; see
    below. *)
Theorem C56_lifetime_partial : forall `{J : Jwt}, jwt_laws -> forall k made user namespaces rules expiry now,
  text_ok user -> Forall text_ok namespaces -> Forall rule_text_ok rules ->
  (made <= now)%Z -> (now + second <= made + expiry)%Z ->
  exists u, authenticate (pub k) now ("Bearer " +:+ generate_token k made user namespaces rules expiry) = Known user u /\ has_rights u namespaces rules.
Proof.
  intros J L k made user nss rules expiry now O1 O2 O3 A B. pose proof (date_bounds made). pose proof (date_bounds (made + expiry)).
  exists (user_of_claims rules_text (Claims nss rules)). split.
  - apply authenticate_spec. exists (generate_token k made user nss rules expiry), (claims_for made user nss rules expiry). split_and!; try done. apply fresh_honoured; try done. lia.
  - by apply (rights L (claims_for made user nss rules expiry)).
Qed.
Print Assumptions C56_lifetime_partial.

(** It gives none once its time is up, nor a second before it was made. *)
Theorem C56_expired : forall `{J : Jwt}, jwt_laws -> forall k made user namespaces rules expiry now,
  text_ok user -> Forall text_ok namespaces -> Forall rule_text_ok rules ->
  (made + expiry <= now)%Z \/ (now + second <= made)%Z ->
  authenticate (pub k) now ("Bearer " +:+ generate_token k made user namespaces rules expiry) = BadToken.
Proof.
  intros J L k made user nss rules expiry now O1 O2 O3 A. pose proof (date_bounds made). pose proof (date_bounds (made + expiry)).
  destruct (authenticate _ now _) as [| |n u] eqn:E; [by apply authenticate_none in E|done|exfalso].
  apply authenticate_spec in E as (t & c & E & H1 & _). apply (f_equal (drop_prefix "Bearer ")) in E. rewrite !drop_prefix_app in E. subst t.
  assert (c = claims_for made user nss rules expiry) as -> by (by eapply fresh_only). apply fresh_honoured in H1; [|done..]. lia.
Qed.
Print Assumptions C56_expired.

(** Data for the examples: times in tenths of a second. *)
Definition at_ (n : Z) : Z := (n * 100000000)%Z.
Definition list_pods : rule := Rule ["list"; "get"] ["op.view.dcontroller.io"] ["podview"] [].
Definition bearer (made expiry : Z) : string := "Bearer " +:+ generate_token (J := toy_jwt) 5%positive (at_ made) "alice" ["team-a"] [list_pods] (at_ expiry).
Definition knows (p : positive) (now : Z) (h : string) : bool := match authenticate (J := toy_jwt) p (at_ now) h with Known _ _ => true | _ => false end.
Definition may (p : positive) (now : Z) (h verb ns : string) : bool :=
  match authenticate (J := toy_jwt) p (at_ now) h with
  | Known _ u => authorize rules_read (Request (Some u) true verb "op.view.dcontroller.io" "podview" "" "" ns)
  | _ => false
  end.
Example ex_C56 : jwt_laws (J := toy_jwt) /\ knows 5 100 (bearer 95 600) = true /\ may 5 100 (bearer 95 600) "list" "team-a" = true
  /\ may 5 100 (bearer 95 600) "list" "team-b" = false /\ may 5 100 (bearer 95 600) "delete" "team-a" = false
  /\ knows 6 100 (bearer 95 600) = false /\ knows 5 700 (bearer 95 600) = false /\ knows 5 80 (bearer 95 600) = false
  /\ (at_ 95 <= at_ 100)%Z /\ (at_ 100 + second <= at_ 95 + at_ 600)%Z /\ (at_ 95 + at_ 600 <= at_ 700)%Z /\ (at_ 80 + second <= at_ 95)%Z.
Proof. split; [apply toy_laws|]. split_and!; vm_compute; done. Qed.

(** Refuted: a token lasts as long as was asked for.  Times are cut to seconds: one
    made half past a second for one second is gone half a second later; one for less
    than a second may never be good. *)
Theorem C56_lifetime_refuted :
  knows 5 15 (bearer 15 10) = true /\ knows 5 19 (bearer 15 10) = true /\ knows 5 20 (bearer 15 10) = false /\ knows 5 11 (bearer 11 8) = false.
Proof. vm_compute. done. Qed.
Print Assumptions C56_lifetime_refuted.

(** *** Making tokens with dctl *)

Lemma asked_lists f : lists (f_namespaces f) (asked_namespaces f).
Proof. apply parse_comma_spec. unfold asked_namespaces. case_decide as E; [|done]. rewrite E. reflexivity. Qed.
Lemma set_last_spec `{J : Jwt} rules names : for_names names rules (set_last_names rules names).
Proof.
  destruct rules as [|r l _] using rev_ind; [by left|]. right. exists l, r. split; [done|]. induction l as [|r0 l IH]; [done|]. cbn. destruct l; [done|]. cbn in IH |- *. by rewrite IH.
Qed.
Lemma asked_rules_spec `{J : Jwt} fs f rules : asked_rules fs f = Some rules -> exists base,
    (f_rules_file f <> EmptyString -> exists d, fs !! f_rules_file f = Some d /\ rules_read d.1 = Some base)
    /\ (f_rules_file f = EmptyString -> f_rules f <> EmptyString -> rules_read (f_rules f) = Some base)
    /\ (f_rules_file f = EmptyString -> f_rules f = EmptyString -> base = [])
    /\ (f_names f = EmptyString -> rules = base)
    /\ (f_names f <> EmptyString -> exists names, lists (f_names f) names /\ for_names names base rules).
Proof.
  unfold asked_rules. intros (l & E & [= <-])%bind_Some. exists l. split_and!.
  - intros N. rewrite decide_True in E by done. apply bind_Some in E as (d & E1 & E2). eauto.
  - intros N1 N2. rewrite decide_False in E by (by intros ?). by rewrite decide_True in E.
  - intros N1 N2. rewrite !decide_False in E by (by intros ?). congruence.
  - intros N. by rewrite decide_True.
  - intros N. rewrite decide_False by done. eexists. split; [by apply parse_comma_spec|]. apply set_last_spec.
Qed.

(** A kubeconfig made by dctl for keys made by dctl: the server knows its user, who
    has the rights that the flags ask for, and get-config shows them. *)
Theorem C56_config_partial : forall `{J : Jwt}, jwt_laws -> forall fs hosts key_file cert_file k f made now kc,
  key_file <> cert_file -> f_key_file f = key_file -> text_ok (f_user f) -> (forall l, lists (f_namespaces f) l -> Forall text_ok l) -> (forall l, lists (f_names f) l -> Forall text_ok l) ->
  let fs' := run_generate_keys fs hosts key_file cert_file k in
  run_generate_config fs' made f = Some kc ->
  (made <= now)%Z -> (now + second <= made + f_expiry f)%Z ->
  exists namespaces rules t p u c, asks fs' f namespaces rules /\ extract_token kc = Some t /\ load_public_key fs' cert_file = Some p
    /\ authenticate p now ("Bearer " +:+ t) = Known (f_user f) u /\ has_rights u namespaces rules
    /\ run_get_config fs' now kc cert_file = Some c /\ tc_user c = f_user f /\ tc_namespaces c = namespaces /\ tc_rules c = rules.
Proof.
  intros J L fs hosts kf cf k f made now kc N K O1 O2 O3 fs' R A B. assert (En : lists (f_namespaces f) (asked_namespaces f)) by apply asked_lists. specialize (O2 _ En). specialize (O3 _ (proj2 (parse_comma_spec _ _) eq_refl)). unfold run_generate_config in R.
  destruct (keys_load L fs hosts kf cf k N) as [K1 K2]. fold fs' in K1, K2. destruct (asked_rules fs' f) as [rules|] eqn:Q; [|done]. cbn in R. rewrite K, K1 in R. cbn in R. injection R as <-.
  assert (O5 : Forall rule_text_ok rules).
  { unfold asked_rules in Q. apply bind_Some in Q as (l & Q1 & [= <-]). assert (Forall rule_text_ok l).
    { case_decide; [apply bind_Some in Q1 as (d & _ & Q1); by eapply law_rules_ok|]. case_decide; [by eapply law_rules_ok|]. injection Q1 as <-. constructor. }
    destruct (decide (f_names f = EmptyString)); [assumption|]. by apply set_last_ok. }
  set (t := generate_token k made (f_user f) (asked_namespaces f) rules (f_expiry f)).
  assert (H : honoured (pub k) now t (claims_for made (f_user f) (asked_namespaces f) rules (f_expiry f))).
  { apply fresh_honoured; try done. pose proof (date_bounds made). pose proof (date_bounds (made + f_expiry f)). lia. }
  assert (X : extract_token (generate_kubeconfig (f_server f) (f_user f) t "dcontroller" "dcontroller" (f_namespace f) (f_insecure f) (f_http f)) = Some t).
  { apply extract_generated; [done|apply (law_some L)]. }
  eexists (asked_namespaces f), rules, t, (pub k), _, (claims_for made (f_user f) (asked_namespaces f) rules (f_expiry f)). split_and!; try done.
  - split; [done|]. by apply asked_rules_spec.
  - apply authenticate_spec. eauto 10.
  - by apply (rights L).
  - unfold run_get_config. rewrite X. cbn. rewrite K2. cbn. by apply parse_any.
Qed.
Print Assumptions C56_config_partial.

(** What the flags for namespaces and names list: the texts between the commas, less
    the white space around them, if anything is left. *)
Theorem C56_lists : forall s l, parse_comma s = l <-> lists s l.
Proof. intros s l. symmetry. apply parse_comma_spec. Qed.
Print Assumptions C56_lists.

(** Names restrict the last rule and nothing else. *)
Theorem C56_names : forall `{J : Jwt} rules r names,
  set_last_names (rules ++ [r]) names = (rules ++ [Rule (r_verbs r) (r_groups r) (r_resources r) names])%list.
Proof.
  intros J rules r names. induction rules as [|r0 rules IH]; [done|]. cbn. destruct rules as [|r1 rules]; [done|]. cbn in IH |- *. by rewrite IH.
Qed.
Print Assumptions C56_names.

(** Whatever token the server honours, get-config shows its user and rights. *)
Theorem C56_shown : forall `{J : Jwt}, jwt_laws -> forall fs now kc t p cert_file n u,
  extract_token kc = Some t -> load_public_key fs cert_file = Some p -> authenticate p now ("Bearer " +:+ t) = Known n u ->
  exists c, run_get_config fs now kc cert_file = Some c /\ tc_user c = n /\ has_rights u (tc_namespaces c) (tc_rules c).
Proof.
  intros J L fs now kc t p cf n u X P A. destruct (known_rights L _ _ _ _ _ A) as (t' & c & E & H & -> & R). apply (f_equal (drop_prefix "Bearer ")) in E. rewrite !drop_prefix_app in E. subst t'.
  exists c. split_and!; [|done|done]. unfold run_get_config. rewrite X. cbn. rewrite P. cbn. by apply parse_any.
Qed.
Print Assumptions C56_shown.

Definition toy_flags (namespaces rules names : string) : gc_flags := Flags "alice" namespaces rules "" names (at_ 600) "a.key" "localhost:8443" "" false false.
Definition toy_fs : files := run_generate_keys (J := toy_jwt) ∅ ["localhost"%string] "a.key" "a.crt" 5%positive.
Definition toy_rules (l : list rule) : string := rules_text (Jwt := toy_jwt) l.
(** what the user of a new kubeconfig may do *)
Definition config_allows (f : gc_flags) (verb name ns : string) : option bool :=
  kc ← run_generate_config (J := toy_jwt) toy_fs (at_ 95) f; t ← extract_token kc; p ← load_public_key (J := toy_jwt) toy_fs "a.crt";
  match authenticate (J := toy_jwt) p (at_ 100) ("Bearer " +:+ t) with
  | Known _ u => Some (authorize rules_read (Request (Some u) true verb "op.view.dcontroller.io" "podview" "" name ns))
  | _ => None
  end.
Definition get_ab : rule := Rule ["get"] ["*"] ["podview"] ["a"; "b"].
Definition get_any : rule := Rule ["get"] ["*"] ["podview"] [].
Example ex_C56_config :
  config_allows (toy_flags " team-a , team-b" (toy_rules [get_ab]) "") "get" "a" "team-b" = Some true
  /\ config_allows (toy_flags " team-a , team-b" (toy_rules [get_ab]) "") "get" "c" "team-b" = Some false
  /\ config_allows (toy_flags " team-a , team-b" (toy_rules [get_ab]) "") "get" "a" "team-c" = Some false
  /\ config_allows (toy_flags "team-a" (toy_rules [get_any]) "a,b") "get" "c" "team-a" = Some false
  /\ config_allows (toy_flags "team-a" (toy_rules [get_any]) "a,b") "get" "b" "team-a" = Some true
  /\ parse_comma " team-a ,, team-b" = ["team-a"; "team-b"]%string.
Proof. vm_compute. done. Qed.

(** Refuted: whoever gives --namespaces, --rules or --resource-names gets a token that
    is restricted by them.  A list of blanks lifts the restriction instead of
    allowing nothing; an empty list of rules gives full access; names without rules
    are ignored; blank names lift the names in the rule. *)
Theorem C56_restrictions_refuted :
  config_allows (toy_flags " ," (toy_rules [get_any]) "") "get" "a" "kube-system" = Some true
  /\ config_allows (toy_flags "" "[]" "") "delete" "a" "kube-system" = Some true
  /\ config_allows (toy_flags "team-a" "" "a,b") "delete" "c" "team-a" = Some true
  /\ config_allows (toy_flags "team-a" (toy_rules [get_ab]) "") "get" "c" "team-a" = Some false
  /\ config_allows (toy_flags "team-a" (toy_rules [get_ab]) ",") "get" "c" "team-a" = Some true.
Proof. vm_compute. done. Qed.
Print Assumptions C56_restrictions_refuted.

(** Refuted: a token that get-config shows as valid is good for the server. It does
    not check the signing method. *)
Definition ps_token : string := toy_token 5 "PS256" (claims_for (at_ 95) "alice" [] [] (at_ 600)).
Theorem C56_shown_refuted :
  match run_get_config (J := toy_jwt) toy_fs (at_ 100) (generate_kubeconfig "h" "alice" ps_token "c" "c" "" false false) "a.crt" with Some c => tc_user c = "alice"%string | None => False end
  /\ knows 5 100 ("Bearer " +:+ ps_token) = false.
Proof. vm_compute. done. Qed.
Print Assumptions C56_shown_refuted.

(** Refuted: the private key can be read by its owner only.  The command that makes
    keys swaps the two files, so that the key gets the permissions meant for the
    certificate, and the other way around. *)
Theorem C56_key_file_refuted : forall `{J : Jwt} fs hosts key_file cert_file k, key_file <> cert_file -> fs !! key_file = None -> fs !! cert_file = None ->
  exists perm perm', run_generate_keys fs hosts key_file cert_file k !! key_file = Some (key_pem k, perm) /\ others_can_read perm = true
    /\ run_generate_keys fs hosts key_file cert_file k !! cert_file = Some (cert_pem hosts k, perm') /\ others_can_read perm' = false.
Proof.
  intros J fs hosts kf cf k N E1 E2. exists 420%N, 384%N. unfold run_generate_keys, write_cert_and_key, write_file. rewrite E1.
  rewrite (lookup_insert_ne _ cf kf) by done. rewrite (lookup_insert_ne fs kf cf) by done. rewrite E2, !lookup_insert. done.
Qed.
Print Assumptions C56_key_file_refuted.
