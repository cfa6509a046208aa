(** Property C55: the API server lets a request do what its token grants, and nothing
    else. *)
From Verif Require Import JsonModel JsonSpec ObjModel ValueSpec ZSetSpec PipelineSpec ViewModel ViewSpec ViewProofs ViewProofs2 StorageModel StorageSpec StorageProofs
  RegistryModel RegistrySpec GateModel GateSpec GateProofs PropsView PropsStorage.
From Verif Require AuthModel AuthSpec TokenModel TokenSpec TokenProofs TestToken.

(** The decision, in any state: without a token that the server should honour the answer
    is 401; with one that does not grant the request it is 403; in both cases nothing
    changes and nobody is told anything.  A granted request is treated as if there
    were no authentication. *)
Theorem C55_decision : forall `{J : TokenModel.Jwt}, TokenSpec.jwt_laws -> forall hash lister p now s c h i, request_info h = Some i ->
  ((forall cl, ~ bears p now h cl) -> gate hash lister (Some p) now s c h = (c, [], H401))
  /\ (forall cl, bears p now h cl ->
       let granted := AuthSpec.admits (TokenModel.tc_namespaces cl) (i_namespace i)
                      /\ AuthSpec.permits (TokenModel.tc_rules cl) (i_verb i) (i_group i) (i_resource i) (i_name i) in
       (i_resource_request i = true -> ~ granted -> gate hash lister (Some p) now s c h = (c, [], H403))
       /\ ((i_resource_request i = true -> granted) -> gate hash lister (Some p) now s c h = gate hash lister None now s c h)).
Proof.
  intros J LJ hash lister p now s c h i I. destruct (gate_cases LJ hash lister p now s c h) as [[E _]|(i' & E & D)]; [by rewrite I in E|]. rewrite I in E. injection E as <-.
  assert (N : gate hash lister None now s c h = dispatch hash lister s c i h) by (unfold gate; by rewrite I). rewrite N.
  destruct D as [[B ->]|(cl' & B & D)].
  - split; [done|]. intros cl Hc. by destruct (B cl).
  - split; [intros H; by destruct (H cl')|]. intros cl Hc. assert (cl' = cl) as -> by (by eapply bears_fun). cbv zeta. destruct D as [(D1 & D2 & ->)|(D1 & ->)].
    + split; [done|]. intros H. by destruct D2; apply H.
    + split; [|done]. intros H1 H2. by destruct H2; apply D1.
Qed.
Print Assumptions C55_decision.

(** Whatever an object of a view was before a request and is after it: if these differ then
    the request bears a token that the server should honour, and that grants writing
    this object.  This holds after any history of registrations, requests and writes.
    The full statement has no condition on patches; see C55_patch_refuted. *)
Theorem C55_writes_partial : forall `{J : TokenModel.Jwt}, TokenSpec.jwt_laws -> forall hash lister servable auth es p now h,
  lists_all lister -> Forall event_ok es -> http_ok h ->
  let '(s, c) := grun hash lister servable auth es in
  let c' := (gate hash lister (Some p) now s c h).1.1 in
  forall y ns name, is_view_kind y = true -> plain (ns, name) -> vc_get c' y ns name <> vc_get c y ns name ->
  exists cl verb, bears p now h cl /\ verb ∈ writing /\ allows cl verb y ns name.
Proof.
  intros J LJ hash lister servable auth es p now h L F O. destruct (gate_inv hash lister L servable auth es F) as [G (w & S)]. destruct (grun hash lister servable auth es) as [s c]. cbn [fst snd] in *.
  intros y ns name V P N. destruct (gate_cases LJ hash lister p now s c h) as [[_ E]|(i & I & [[_ E]|(cl & B & [(_ & _ & E)|(M & E)])])]; rewrite E in N; try done.
  assert (D := dispatch_spec hash lister L s c w i h G S O I). destruct D as [reply _ _|x sel _ _ _ _ _|x r c' evs q w' e R Eg Er Fx Ca Ei S' As Te]; try done. cbn in N.
  rewrite (vc_get_sim hash c' w' y ns name S' V P), (vc_get_sim hash c w y ns name S V P) in N.
  assert (N' : w' !! (y, (ns, name)) <> w !! (y, (ns, name))) by (intros X; apply N; by rewrite X). clear N.
  destruct (M R) as [M1 M2]. exists cl, (i_verb i). split; [done|].
  assert (W : i_verb i ∈ writing). { destruct (ca_write _ _ Ca) as [W|W]; [|done]. specialize (W hash w x). rewrite Ei in W. cbn in W. by subst w'. }
  split; [done|]. assert (Ab : about x r y ns).
  { destruct (decide (y = x /\ (ns = req_ns r \/ (by_name r = false /\ req_ns r = EmptyString)))) as [A|A]; [exact A|]. exfalso. apply N'.
    assert (X := ideal_serve_other hash x w r y (ns, name) (sim_keyed _ _ _ S) A). by rewrite Ei in X. }
  destruct Ab as [-> Ab]. rewrite (ca_ns _ _ Ca) in Ab. split.
  - destruct Ab as [->|[_ Ab]]; [done|]. rewrite Ab in M1. by apply admits_all.
  - rewrite <- Eg, <- Er. destruct (named r) as [n|] eqn:En.
    + assert (name = n) as ->. { destruct (decide (name = n)) as [|X]; [done|]. exfalso. apply N'. assert (Y := ideal_named hash w x r x (ns, name) n (ca_ok _ _ Ca) (sim_sound _ _ _ S) En X). by rewrite Ei in Y. }
      destruct (ca_name _ _ Ca n En) as [Ev| ->]; [|done]. eapply collection_permits; [|done]. rewrite Ev. right; right; by left.
    + eapply collection_permits; [|done]. destruct (ca_coll _ _ Ca En) as [-> | ->]; [by left|by right; right; right].
Qed.
Print Assumptions C55_writes_partial.

(** Every object in an answer, and every object that a watch selects, is one that the
    token grants reading or writing. *)
Theorem C55_reads_partial : forall `{J : TokenModel.Jwt}, TokenSpec.jwt_laws -> forall hash lister servable auth es p now h,
  lists_all lister -> Forall event_ok es -> http_ok h ->
  let '(s, c) := grun hash lister servable auth es in
  let reply := (gate hash lister (Some p) now s c h).2 in
  (forall m, In m (answer reply) -> exists cl verb, bears p now h cl /\ allows cl verb (get_gvk m) (get_namespace m) (get_name m))
  /\ (forall x sel m, reply = HWatch x sel -> get_gvk m = x -> selects sel m = true -> exists cl, bears p now h cl /\ allows cl "watch" (get_gvk m) (get_namespace m) (get_name m)).
Proof.
  intros J LJ hash lister servable auth es p now h L F O. destruct (gate_inv hash lister L servable auth es F) as [G (w & S)]. destruct (grun hash lister servable auth es) as [s c]. cbn [fst snd] in *. cbv zeta.
  destruct (gate_cases LJ hash lister p now s c h) as [[_ E]|(i & I & [[_ E]|(cl & B & [(_ & _ & E)|(M & E)])])]; rewrite E; try done.
  assert (D := dispatch_spec hash lister L s c w i h G S O I). destruct D as [reply Nr Nw|x sel R Eg Er Ev Es|x r c' evs q w' e R Eg Er Fx Ca Ei S' As Te]; cbn [fst snd].
  - split; [|intros x sel m ->; by destruct (Nw x sel)]. intros m Hm. destruct reply; try done. by destruct (Nr r).
  - split; [done|]. intros x' sel' m [= <- <-] <- Hs. destruct (M R) as [M1 M2]. exists cl. split; [done|]. split.
    + apply selects_ns in Hs. rewrite Es in Hs. destruct Hs as [Hs|Hs]; [|by rewrite Hs]. rewrite Hs in M1. by apply admits_all.
    + rewrite <- Eg, <- Er. rewrite Ev in M2. eapply collection_permits; [|done]. by right; left.
  - split; [|done]. intros m Hm. cbn in Hm. destruct (M R) as [M1 M2]. exists cl, (i_verb i). split; [done|].
    assert (A : as_expected q (ideal_serve hash w x r).2) by (by rewrite Ei). destruct Fx as [F1 F2].
    destruct (ideal_shown hash x F2 w r (ca_ok _ _ Ca) (sim_keyed _ _ _ S) (sim_sound _ _ _ S) q A m Hm) as [E1 E2]. rewrite (ca_ns _ _ Ca) in E2. split.
    + destruct E2 as [->|[_ E2]]; [done|]. rewrite E2 in M1. by apply admits_all.
    + rewrite E1, <- Eg, <- Er. destruct (named r) as [n|] eqn:En.
      * rewrite (shown_named hash w x r q m n (ca_ok _ _ Ca) (sim_sound _ _ _ S) En A Hm). destruct (ca_name _ _ Ca n En) as [Ev| ->]; [|done]. eapply collection_permits; [|done]. rewrite Ev. right; right; by left.
      * eapply collection_permits; [|done]. destruct (ca_coll _ _ Ca En) as [-> | ->]; [by left|by right; right; right].
Qed.
Print Assumptions C55_reads_partial.

(** The owner of a token learns nothing about objects that it grants nothing about: if
    two histories leave the same objects of the kinds and in the namespaces about
    which the token grants something, then the same request is answered in the same
    way, and leaves the same objects there. *)
Theorem C55_blind_partial : forall `{J : TokenModel.Jwt}, TokenSpec.jwt_laws -> forall hash lister servable auth es1 es2 p now h cl,
  lists_all lister -> Forall event_ok es1 -> Forall event_ok es2 -> http_ok h -> bears p now h cl ->
  let '(s1, c1) := grun hash lister servable auth es1 in
  let '(s2, c2) := grun hash lister servable auth es2 in
  let concerned y ns := exists verb name, allows cl verb y ns name in
  storage s1 = storage s2 -> same_on concerned c1 c2 ->
  let '(c1', _, r1) := gate hash lister (Some p) now s1 c1 h in
  let '(c2', _, r2) := gate hash lister (Some p) now s2 c2 h in
  same_answer r1 r2 /\ same_on concerned c1' c2'.
Proof.
  intros J LJ hash lister servable auth es1 es2 p now h cl L F1 F2 O B.
  destruct (gate_inv hash lister L servable auth es1 F1) as [G1 (w1 & S1)]. destruct (grun hash lister servable auth es1) as [s1 c1].
  destruct (gate_inv hash lister L servable auth es2 F2) as [G2 (w2 & S2)]. destruct (grun hash lister servable auth es2) as [s2 c2]. cbn [fst snd] in *. cbv zeta. intros Es Sa.
  destruct (gate_cases LJ hash lister p now s1 c1 h) as [[I E]|(i & I & D)].
  { unfold gate at 2. rewrite I, E. split; [by left|done]. }
  destruct (gate_cases LJ hash lister p now s2 c2 h) as [[I2 _]|(i2 & I2 & D2)]; [by rewrite I in I2|]. rewrite I in I2. injection I2 as <-.
  destruct D as [[N _]|(cl1 & B1 & D)]; [by destruct (N cl)|]. destruct D2 as [[N _]|(cl2 & B2 & D2)]; [by destruct (N cl)|].
  assert (cl1 = cl) as -> by (by eapply bears_fun). assert (cl2 = cl) as -> by (by eapply bears_fun).
  destruct D as [(R & M & ->)|(M & ->)], D2 as [(R2 & M2 & ->)|(M2 & ->)]; [by split; [left|]|by destruct M; apply M2|by destruct M2; apply M|]. clear M2.
  unfold dispatch. destruct (_ || _) eqn:Bo; [by split; [left|]|]. apply orb_false_iff in Bo as [_ R]. apply negb_false_iff in R.
  assert (Eh : serve_http s2 (Request (i_group i) (i_version i) (i_resource i) (i_sub i) (i_verb i)) = serve_http s1 (Request (i_group i) (i_version i) (i_resource i) (i_sub i) (i_verb i))) by (unfold serve_http; by rewrite Es).
  rewrite Eh. destruct (serve_http s1 _) as [|x v| |] eqn:E; [by split; [left|]| |by split; [left|]..]. apply serve_http_handle in E as (E1 & E2 & E3 & E4 & [X1 X2]); [|done]. cbn in E1, E2, E3, E4.
  destruct (handler i h) as [r|sel|e] eqn:H; [|by split; [left|]..].
  assert (C := handler_call h i r O I H). assert (T1 := serve_sim hash lister L x X1 X2 c1 w1 r S1 (ca_ok _ _ C)). assert (T2 := serve_sim hash lister L x X1 X2 c2 w2 r S2 (ca_ok _ _ C)).
  apply (same_on_world hash c1 w1 c2 w2) in Sa; [|done..]. destruct (M R) as [M1 M2].
  assert (Ab : forall y ns, about x r y ns -> exists verb name, allows cl verb y ns name).
  { intros y ns [-> A]. exists (i_verb i), (i_name i). rewrite (ca_ns _ _ C) in A. split; [|by rewrite <- E1, <- E3]. destruct A as [->|[_ A]]; [done|]. rewrite A in M1. by apply admits_all. }
  assert (Sb : same_world (about x r) w1 w2). { intros y j A. apply Sa. by apply Ab. }
  assert (K1 := sim_keyed _ _ _ S1). assert (K2 := sim_keyed _ _ _ S2). assert (A := ideal_serve_alike hash x w1 w2 r K1 K2 Sb).
  assert (D1 := fun y j => ideal_serve_other hash x w1 r y j K1). assert (D2 := fun y j => ideal_serve_other hash x w2 r y j K2).
  destruct (serve hash lister x true c1 r) as [[c1' es1'] q1]. destruct (serve hash lister x true c2 r) as [[c2' es2'] q2].
  destruct (ideal_serve hash w1 x r) as [w1' e1]. destruct (ideal_serve hash w2 x r) as [w2' e2]. destruct T1 as (T1 & A1 & _). destruct T2 as (T2 & A2 & _). cbn [fst snd] in *. destruct A as [A3 A4]. split.
  - right. exists q1, q2. split_and!; [done..|]. by eapply alike_as.
  - apply (same_on_world hash c1' w1' c2' w2'); [done..|]. intros y j Hc. destruct (decide (y = x /\ (j.1 = req_ns r \/ (by_name r = false /\ req_ns r = EmptyString)))) as [Y|Y]; [by apply A3|].
    rewrite (D1 y j Y), (D2 y j Y). by apply Sa.
Qed.
Print Assumptions C55_blind_partial.

(** What is judged is what is done.  A request for objects of a kind in a namespace, by
    their URL and with a method that means [verb], is judged as [verb] on that kind,
    namespace and name... *)
Theorem C55_url_partial : forall h x ns name verb, url_kind x ns ->
  (part name -> h_path h = url (home x ns ++ [name]) -> asks (h_method h) (h_watch h) true verb ->
   request_info h = Some (RInfo true verb (gvk_group x) (gvk_version x) ns (lower (gvk_kind x)) "" name))
  /\ (h_path h = url (home x ns) -> asks (h_method h) (h_watch h) false verb ->
      exists n, request_info h = Some (RInfo true verb (gvk_group x) (gvk_version x) ns (lower (gvk_kind x)) "" n)).
Proof.
  intros h x ns name verb U. split; [intros P E A; by apply info_one|]. intros E A. eexists. by apply info_all.
Qed.
Print Assumptions C55_url_partial.

(** ... and, if it is granted and the kind is registered, the storage of the kind does just
    this. *)
Theorem C55_granted_partial : forall `{J : TokenModel.Jwt}, TokenSpec.jwt_laws -> forall hash lister p now s c h cl x ns name verb r,
  url_kind x ns -> is_view_kind x = true -> storage s !! (gvk_group x, gvk_version x, lower (gvk_kind x)) = Some x ->
  (part name /\ h_path h = url (home x ns ++ [name]) /\ asks (h_method h) (h_watch h) true verb
   \/ name = EmptyString /\ h_path h = url (home x ns) /\ asks (h_method h) (h_watch h) false verb) ->
  bears p now h cl -> allows cl verb x ns name -> means h ns name verb r ->
  gate hash lister (Some p) now s c h = let '(c', es, q) := serve hash lister x true c r in (c', es, HStorage q).
Proof.
  intros J LJ hash lister p now s c h cl x ns name verb r U V St Rq B [Al1 Al2] Me.
  assert (I : exists n, request_info h = Some (RInfo true verb (gvk_group x) (gvk_version x) ns (lower (gvk_kind x)) "" n)
    /\ ((n = name /\ n <> EmptyString) \/ (name = EmptyString /\ AuthSpec.on_collection verb /\ n = if decide (verb = "list" \/ verb = "watch")%string then query_name h else EmptyString)) /\ exists rest, h_path h = url (["apis"%string; gvk_group x; gvk_version x] ++ rest) /\ rest <> []).
  { destruct Rq as [(P & E & A)|(-> & E & A)].
    - exists name. split; [by apply info_one|]. split; [left; by destruct P|]. unfold home in E. rewrite <- app_assoc in E. eexists. split; [done|]. by destruct (decide _).
    - eexists. split; [by apply info_all|]. split; [right; split; [done|]; split; [|done]|].
      + unfold AuthSpec.on_collection. inversion A; auto.
      + unfold home in E. eexists. split; [done|]. by destruct (decide _). }
  destruct I as (n & I & Hn & rest & Ep & Nr).
  assert (Pr : AuthModel.has_prefix (h_path h) "/apis/" = true).
  { rewrite Ep. destruct rest as [|a rest]; [done|]. unfold url. cbn [app]. rewrite !concat_cons. apply (TokenProofs.has_prefix_app "/apis/"). }
  assert (Gr : AuthSpec.permits (TokenModel.tc_rules cl) verb (gvk_group x) (lower (gvk_kind x)) n) by (destruct Hn as [[-> _]|(_ & Co & _)]; [done|by eapply collection_permits]).
  destruct (C55_decision LJ hash lister p now s c h _ I) as [_ D]. destruct (D cl B) as [_ ->]; [|by intros _]. unfold gate. rewrite I. unfold dispatch. rewrite Pr. cbn [negb orb i_resource_request].
  assert (Vg : is_view_group (gvk_group x) = true) by (unfold is_view_kind, is_view_gv in V; by apply andb_true_iff in V as [V _]).
  unfold serve_http. cbn [q_group q_version q_resource q_sub q_verb i_group i_version i_resource i_sub i_verb]. rewrite Vg. cbn [negb]. rewrite St. rewrite decide_False by (intros X; by apply X).
  assert (Kv : verb ∈ known_verbs) by (destruct Me; apply elem_of_list_In; cbn; auto 10). rewrite decide_True by done.
  assert (H : handler (RInfo true verb (gvk_group x) (gvk_version x) ns (lower (gvk_kind x)) "" n) h = CallStorage r).
  { unfold handler. cbn [i_namespace i_name i_verb]. destruct Me as [|y Ey Hy|m Em Ens|m Em Eid| |y Ey].
    - rewrite decide_True by done. destruct Hn as [[-> _]|(_ & [E|[E|[E|E]]] & _)]; done.
    - rewrite decide_False by done. rewrite decide_True by auto. rewrite Ey. assert (Hf : list_fields n y = Some (y_fields y)).
      { destruct Hn as [[-> Nn]|(_ & _ & ->)]; [destruct Rq as [(_ & _ & A)|(E & _)]; [by inversion A|done]|]. rewrite decide_True by auto. unfold query_name, list_fields. rewrite Ey.
        destruct (decide (default EmptyString (y_name y) = EmptyString)) as [|Nn]; [done|]. destruct (y_fields y); [|by rewrite (Hy eq_refl) in Nn]. rewrite decide_True; [done|]. by destruct (y_name y). }
      rewrite Hf. by rewrite decide_False.
    - rewrite decide_False by done. rewrite decide_False by (by intros []). rewrite decide_True by done. rewrite Em. cbn. unfold match_namespace. by rewrite decide_True.
    - rewrite decide_False by done. rewrite decide_False by (by intros []). rewrite decide_False by done. rewrite decide_True by done. rewrite Em. cbn. injection Eid as En1 En2. unfold match_namespace. rewrite decide_True by done.
      destruct Hn as [[-> Nn]|(_ & [E|[E|[E|E]]] & _)]; [|done..]. unfold name_fits. rewrite En1, En2, !String.eqb_refl, !orb_true_r. cbn. destruct (String.eqb_spec name EmptyString); done.
    - rewrite decide_False by done. rewrite decide_False by (by intros []). rewrite !decide_False by done. rewrite decide_True by done. destruct Hn as [[-> _]|(_ & [E|[E|[E|E]]] & _)]; done.
    - rewrite decide_False by done. rewrite decide_False by (by intros []). rewrite !decide_False by done. rewrite decide_True by done. by rewrite Ey. }
  by rewrite H.
Qed.
Print Assumptions C55_granted_partial.

(** Data for the examples. *)
Definition g_key : positive := 5%positive.
Definition g_token (namespaces : list string) (rules : list AuthModel.rule) : string :=
  ("Bearer " +:+ TokenModel.generate_token (J := TestToken.toy_jwt) g_key 0 "alice" namespaces rules 600000000000)%string.
Definition g_editor : AuthModel.rule := AuthModel.Rule ["get"; "list"; "watch"; "create"; "patch"] ["*"] ["v"] [].
Definition g_getter : AuthModel.rule := AuthModel.Rule ["get"; "patch"] ["*"] ["v"] ["a"].
Definition no_query : option query := Some (Query None None None).
Definition no_patch (cur : option jobj) : option jobj := None.
Definition ask (method path auth : string) : http := Http method path auth false no_query None no_patch false no_opts.
Definition v_path (ns name : string) : string := url (home v_gvk ns ++ [name]).
Definition g_events : list gevent :=
  [GRegister (RegisterGVKs [gvk_group v_gvk] [v_gvk; view_gvk "op" "Status"]); GWrite (VCreate (view "V" "x" "a" "1")); GWrite (VCreate (view "V" "y" "a" "2")); GWrite (VCreate (view "V" "" "a" "3"));
   GWrite (VCreate (view "Status" "x" "a" "4"))].
Definition g_state : apiserver * caches := grun (J := TestToken.toy_jwt) id_hash any_order (fun _ => true) (Some g_key) g_events.
Definition g_ask (h : http) : caches * list (gvk * wevent) * hreply := gate (J := TestToken.toy_jwt) id_hash any_order (Some g_key) 5000000000 g_state.1 g_state.2 h.
Definition g_phases (r : hreply) : list (option json) := map (fun m => nested_get m ["status"; "phase"]) (answer r).
Definition phase_at (c : caches) (ns : string) : option json := m ← vc_get c v_gvk ns "a"; nested_get m ["status"; "phase"].

Example C55_example :
  g_phases (g_ask (ask "GET" (v_path "x" "a") (g_token ["x"] [g_editor]))).2 = [Some (JStr "1")]
  /\ (g_ask (ask "GET" (v_path "x" "a") "")).2 = H401 /\ (g_ask (ask "GET" (v_path "x" "a") "Bearer x")).2 = H401
  /\ (g_ask (ask "GET" (v_path "y" "a") (g_token ["x"] [g_editor]))).2 = H403
  /\ (g_ask (ask "DELETE" (v_path "x" "a") (g_token ["x"] [g_editor]))).2 = H403
  /\ (g_ask (ask "GET" (v_path "x" "b") (g_token ["x"] [g_getter]))).2 = H403
  /\ (g_ask (ask "GET" (url (home v_gvk "")) (g_token ["x"] [g_editor]))).2 = H403
  /\ length (g_phases (g_ask (ask "GET" (url (home v_gvk "")) (g_token [] [g_editor]))).2) = 3%nat
  /\ g_phases (g_ask (ask "DELETE" (v_path "y" "a") (g_token [] []))).2 = [Some (JStr "2")].
Proof. vm_compute. split_and!; reflexivity. Qed.
Example C55_example_ok : TokenSpec.jwt_laws (J := TestToken.toy_jwt) /\ lists_all any_order /\ Forall event_ok g_events /\ url_kind v_gvk "x" /\ url_kind v_gvk ""
  /\ (exists cl, bears (J := TestToken.toy_jwt) g_key 5000000000 (ask "GET" (v_path "x" "a") (g_token ["x"] [g_editor])) cl /\ allows cl "get" v_gvk "x" "a")
  /\ http_ok (ask "GET" (v_path "x" "a") (g_token ["x"] [g_editor]))
  /\ asks "GET" false true "get" /\ means (ask "GET" (v_path "x" "a") "") "x" "a" "get" (SGet (Some "x"%string) "a")
  /\ g_state.1.(storage) !! (gvk_group v_gvk, gvk_version v_gvk, lower (gvk_kind v_gvk)) = Some v_gvk.
Proof.
  assert (F : forall k, own_kind (view_gvk "op" k)) by (intros k; exists "op"%string, k; split; [by vm_compute|done]).
  split_and!.
  - apply TestToken.toy_laws.
  - apply any_order_all.
  - unfold g_events. repeat (apply Forall_cons; split); try apply Forall_nil; try done.
    { intros x [_ H]. cbn in H. apply elem_of_cons in H as [->|H]; [split; [apply F|by vm_compute]|]. apply elem_of_list_singleton in H as ->. split; [apply F|by vm_compute]. }
    all: split_and!; [repeat constructor|repeat constructor|by vm_compute].
  - split_and!; try (by vm_compute). right. by vm_compute.
    vm_compute. intros H. repeat (apply elem_of_cons in H as [H|H]; [done|]). by apply elem_of_nil in H.
  - split_and!; try (by vm_compute). by left.
    vm_compute. intros H. repeat (apply elem_of_cons in H as [H|H]; [done|]). by apply elem_of_nil in H.
  - exists (TokenModel.claims_for 0 "alice" ["x"%string] [g_editor] 600000000000). split.
    + exists (TokenModel.generate_token (J := TestToken.toy_jwt) g_key 0 "alice" ["x"%string] [g_editor] 600000000000). split; [reflexivity|].
      assert (X := TokenProofs.fresh_honoured (J := TestToken.toy_jwt) TestToken.toy_laws g_key 0 "alice" ["x"%string] [g_editor] 600000000000 5000000000).
      destruct X as [_ X]; [exact I|repeat constructor|repeat constructor|]. apply X. split; [by vm_compute|by vm_compute].
    + split; [right; right; split; [done|]; by left|]. right. exists g_editor. split; [by left|]. split_and!.
      * exists "get"%string. split; [by left|]. by left.
      * exists "*"%string. split; [by left|]. right; left. exists EmptyString. split; [done|]. by exists (gvk_group v_gvk).
      * exists "v"%string. split; [by left|]. by left.
      * by right; left.
  - split; [by intros m [=]|by intros i cur m _ _ [=]].
  - apply asks_get. by left.
  - constructor.
  - vm_compute. reflexivity.
Qed.

(** Refuted: the token grants every write.  A patch that removes the namespace of an object
    is judged as a patch in the namespace of the URL, and done to the object of the same
    name that has no namespace. *)
Definition moving_patch : http :=
  Http "PATCH" (v_path "x" "a") (g_token ["x"] [g_getter]) false no_query None (fun cur => match cur with Some _ => Some (view "V" "" "a" "9") | None => None end) false no_opts.
Theorem C55_patch_refuted :
  phase_at g_state.2 "x" = Some (JStr "1") /\ phase_at (g_ask moving_patch).1.1 "x" = Some (JStr "1")
  /\ phase_at g_state.2 "" = Some (JStr "3") /\ phase_at (g_ask moving_patch).1.1 "" = Some (JStr "9") /\ g_phases (g_ask moving_patch).2 = [Some (JStr "9")]
  /\ ~ AuthSpec.admits ["x"%string] "".
Proof.
  do 5 (split; [vm_compute; reflexivity|]). intros [H|[H|[H _]]]; [done| |done]. by apply elem_of_list_singleton in H.
Qed.
Print Assumptions C55_patch_refuted.

(** Refuted: objects of every registered kind can be reached by their URL.  Kinds called
    Status or Finalize cannot be reached in a namespace, as the server takes their URL
    for that of a namespace; kinds called Watch, Proxy or Namespaces cannot be reached
    outside of namespaces. *)
Theorem C55_url_refuted :
  g_state.1.(storage) !! (gvk_group v_gvk, gvk_version v_gvk, "status"%string) = Some (view_gvk "op" "Status")
  /\ (m ← vc_get g_state.2 (view_gvk "op" "Status") "x" "a"; nested_get m ["status"; "phase"]) = Some (JStr "4")
  /\ (g_ask (ask "GET" (url (home (view_gvk "op" "Status") "x" ++ ["a"%string])) (g_token [] []))).2 = HOther
  /\ request_info (ask "GET" (url (home (view_gvk "op" "Watch") "" ++ ["a"%string])) "") = Some (RInfo true "watch" "op.view.dcontroller.io" "v1alpha1" "" "a" "" "").
Proof. split_and!; vm_compute; reflexivity. Qed.
Print Assumptions C55_url_refuted.
