(** The second controller of the other specification of the EndpointSlice example. *)
From Verif Require Import JsonModel ObjModel ZSetModel OpsModel ExecModel PipelineModel ValueModel PipeJsonModel StageModel ExampleModel EndpointModel.
From Verif Require Import ExprSpec ZSetSpec OpsSpec ExecSpec JsonSpec CleanSpec PipelineSpec StageSpec StageRunSpec ExampleSpec EndpointSpec EndpointSpec2.
From Verif Require Import JsonProofs JsonIdent ObjProofs CleanProofs ExprProofs2 ExprProofs3 ConvertProofs PipeProofs PipeProofs2 PipeProofs3 StageNames StageProofs StageClean StageRunProofs DeclProofs PropsExpr PropsStage PropsStageRun ExampleProofs ExampleProofs2 ExampleProofs3 ExampleProofs4 ExampleProofs5 StageChain EndpointProofs EndpointProofs2 EndpointProofs3.
#[local] Open Scope string_scope.

Definition ga_id : list (string * expr) :=
  [("name", strE "$.ServiceView.spec.serviceName"); ("namespace", strE "$.ServiceView.metadata.namespace"); ("port", strE "$.ServiceView.spec.ports.port");
   ("protocol", strE "$.ServiceView.spec.ports.protocol"); ("type", strE "$.ServiceView.spec.type")].
Definition ga_project : expr :=
  dictE [("endpoints", strE "$.EndpointSlice.endpoints"); ("id", dictE ga_id);
         ("metadata", dictE [("name", strE "$.ServiceView.metadata.name"); ("namespace", strE "$.ServiceView.metadata.namespace")]);
         ("spec", strE "$.ServiceView.spec")].
Definition ga_name : expr := opl "@concat" [strE "$.id.name"; strE "-"; strE "$.id.protocol"; strE "-"; strE "$.id.port"].
Definition ga_fields : list (string * expr) :=
  [("addresses", strE "$.endpoints.addresses"); ("port", strE "$.spec.ports.port"); ("protocol", strE "$.spec.ports.protocol");
   ("serviceName", strE "$.spec.serviceName"); ("targetPort", strE "$.spec.ports.targetPort"); ("type", strE "$.spec.type")].
Definition ga_final : expr := dictE [("metadata", dictE [("name", ga_name); ("namespace", strE "$.metadata.namespace")]); ("spec", dictE ga_fields)].
Notation ga_k := (strE "$.id").
Notation ga_v := (strE "$.endpoints.addresses").
Notation ga_pre := [Stage KProject ga_project; Stage KUnwind (strE "$.endpoints"); Stage KSelect ep_ready; Stage KUnwind (strE "$.endpoints.addresses")].
Notation ga_post := [Stage KGather (listE [ga_k; ga_v]); Stage KProject ga_final].
Notation ga_stages := (Stage KJoin ep_join :: ga_pre ++ ga_post)%list.
Lemma gather_stages : unmarshal_pipeline gather_json = Val ga_stages.
Proof. reflexivity. Qed.
Notation ep_sources := [service_view; endpoint_slice].
Notation ns_at d := (str_at ["metadata"; "namespace"] d).
Notation name_at d := (str_at ["metadata"; "name"] d).
Notation comb sv es := (combination (map gvk_kind ep_sources) [sv; es]).

(** The documents between the stages. *)
Definition gdoc (ns n : string) (eps id spec : json) : jobj := [("endpoints", eps); ("id", id); ("metadata", JMap [("name", JStr n); ("namespace", JStr ns)]); ("spec", spec)].
Definition gid (sv : jobj) : json :=
  JMap [("name", at_ ["spec"; "serviceName"] sv); ("namespace", at_ ["metadata"; "namespace"] sv); ("port", at_ ["spec"; "ports"; "port"] sv);
        ("protocol", at_ ["spec"; "ports"; "protocol"] sv); ("type", at_ ["spec"; "type"] sv)].
Definition gspec (l : json) (sv : jobj) : json :=
  JMap [("addresses", l); ("port", at_ ["spec"; "ports"; "port"] sv); ("protocol", at_ ["spec"; "ports"; "protocol"] sv);
        ("serviceName", at_ ["spec"; "serviceName"] sv); ("targetPort", at_ ["spec"; "ports"; "targetPort"] sv); ("type", at_ ["spec"; "type"] sv)].
Notation of_view d := (match mget d "ServiceView" with Some (JMap sv) => sv | _ => [] end).
Definition ga_g1 (d : jobj) : list jobj := [gdoc (ns_at (of_view d)) (name_at (of_view d)) (at_ ["EndpointSlice"; "endpoints"] d) (gid (of_view d)) (at_ ["spec"] (of_view d))].
Definition ga_g2 (d : jobj) : list jobj := imap (fun i e => gdoc (ns_at d) (port_name (name_at d) i) e (at_ ["id"] d) (at_ ["spec"] d)) (items (at_ ["endpoints"] d)).
Definition ga_g4 (d : jobj) : list jobj :=
  imap (fun i a => gdoc (ns_at d) (port_name (name_at d) i) (set_addresses (at_ ["endpoints"] d) a) (at_ ["id"] d) (at_ ["spec"] d)) (items (at_ ["endpoints"; "addresses"] d)).
Definition base (sv : jobj) : Prop := (exists ns n, located sv ns n) /\ named_view sv.
Definition from_view (sv : jobj) (e : json) (d : jobj) : Prop := exists n, d = gdoc (ns_at sv) n e (gid sv) (at_ ["spec"] sv).
Definition ga_q0 (d : jobj) : Prop := exists sv es, d = comb sv es /\ base sv /\ slice_ok es.
Definition ga_q1 (d : jobj) : Prop := exists sv eps, base sv /\ from_view sv eps d /\ list_or_null eps /\ Forall endpoint_ok (items eps).
Definition ga_q2 (d : jobj) : Prop := exists sv e, base sv /\ from_view sv e d /\ endpoint_ok e.
Definition ga_at (sv : jobj) (d : jobj) : Prop := exists e a, from_view sv (JMap (mset e "addresses" (JStr a))) d /\ text a.
Definition ga_q4 (d : jobj) : Prop := exists sv, base sv /\ ga_at sv d.
Definition ga_q5 (d : jobj) : Prop := exists sv e vs, base sv /\ from_view sv (JMap (mset e "addresses" (JList vs))) d.
Lemma spec_at sv l : at_ ("spec" :: l) sv = at_path l (at_ ["spec"] sv).
Proof. cbn [at_path]. destruct (mget sv "spec") as [v|]; [done|]. by destruct l. Qed.
Lemma ports_at sv l : at_ ("spec" :: "ports" :: l) sv = at_path l (at_ ["spec"; "ports"] sv).
Proof.
  rewrite (spec_at sv ("ports" :: l)), (spec_at sv ["ports"]). destruct (at_ ["spec"] sv) as [| | | | | |m]; try (by destruct l). cbn [at_path]. destruct (mget m "ports") as [v|]; [done|]. by destruct l.
Qed.
Lemma named_view_ok sv : named_view sv -> view_ok sv.
Proof.
  intros (svc & pr & k & H1 & H2 & H3 & (P1 & P2 & P3) & H4 & H5 & H6). split; [by exists svc|]. rewrite <-(ports_at sv ["protocol"]) in P1. rewrite <-(ports_at sv ["port"]) in P3.
  repeat (apply List.Forall_cons; [first [exact H5|exact H6|rewrite P3; exact I|rewrite P1; by apply word_text]|]). apply List.Forall_nil.
Qed.
Lemma gather_endpoint d : gather_object d -> endpoint_object d.
Proof. intros (H1 & H2 & H3). split_and!; [done| |done]. intros K. by apply named_view_ok, H2. Qed.
Lemma gid_clean `{FloatFmt} d : clean d = true -> jclean (gid d) = true.
Proof.
  intros Hd. pose proof (at_clean ["spec"; "serviceName"] (JMap d) Hd) as A1. pose proof (at_clean ["metadata"; "namespace"] (JMap d) Hd) as A2. pose proof (at_clean ["spec"; "ports"; "port"] (JMap d) Hd) as A3.
  pose proof (at_clean ["spec"; "ports"; "protocol"] (JMap d) Hd) as A4. pose proof (at_clean ["spec"; "type"] (JMap d) Hd) as A5. unfold gid. revert A1 A2 A3 A4 A5.
  generalize (at_ ["spec"; "serviceName"] d) (at_ ["metadata"; "namespace"] d) (at_ ["spec"; "ports"; "port"] d) (at_ ["spec"; "ports"; "protocol"] d) (at_ ["spec"; "type"] d).
  intros j1 j2 j3 j4 j5 A1 A2 A3 A4 A5. cbn [jclean]. rewrite A1, A2, A3, A4, A5. reflexivity.
Qed.
Lemma five_same `{FloatFmt} k1 k2 k3 k4 k5 a1 a2 a3 a4 a5 b1 b2 b3 b4 b5 : jsame (JMap [(k1, a1); (k2, a2); (k3, a3); (k4, a4); (k5, a5)]) (JMap [(k1, b1); (k2, b2); (k3, b3); (k4, b4); (k5, b5)]) ->
  jsame a1 b1 /\ jsame a2 b2 /\ jsame a3 b3 /\ jsame a4 b4.
Proof.
  intros HS. inversion HS as [| |? ? ? N1 N2| | |m1 m2 HF]; [by cbn in N1|]. subst. clear HS.
  apply Forall2_cons_1 in HF as [[_ X1] HF]. apply Forall2_cons_1 in HF as [[_ X2] HF]. apply Forall2_cons_1 in HF as [[_ X3] HF]. apply Forall2_cons_1 in HF as [[_ X4] _]. done.
Qed.
Lemma gid_inj `{FloatFmt} sv sv' j : fmt_ok -> base sv -> base sv' -> clean sv = true -> clean sv' = true -> enc (gid sv) = Some j -> enc (gid sv') = Some j -> doc_id sv = doc_id sv'.
Proof.
  intros Hf ((ns & n & L) & (svc & pr & k & H1 & H2 & H3 & (P1 & P2 & P3) & H4 & _)) ((ns' & n' & L') & (svc' & pr' & k' & H1' & H2' & H3' & (P1' & P2' & P3') & H4' & _)) C C' E E'.
  assert (G : forall d, clean d = true -> jutf8 (gid d)) by (intros d Hd; by apply jclean_utf8, gid_clean).
  destruct (enc_unique Hf (gid sv) (gid sv') j j EmptyString EmptyString (G _ C) (G _ C') E E' ltac:(done) ltac:(done) eq_refl) as [HS _].
  apply five_same in HS as (X1 & X2 & X3 & X4).
  pose proof L as (L1 & L2 & _). pose proof L' as (L1' & L2' & _).
  rewrite H1, H1' in X1. rewrite L1, L1' in X2. rewrite <-(ports_at sv ["protocol"]) in P1. rewrite <-(ports_at sv' ["protocol"]) in P1'. rewrite <-(ports_at sv ["port"]) in P3. rewrite <-(ports_at sv' ["port"]) in P3'.
  rewrite P3, P3' in X3. rewrite P1, P1' in X4.
  assert (SJ : forall a b, jsame (JStr a) (JStr b) -> a = b). { intros a b S. inversion S as [| |? ? ? N1 N2| | |]; [by cbn in N1|done]. }
  assert (IJ : forall a b : nat, jsame (JInt (Z.of_nat a)) (JInt (Z.of_nat b)) -> a = b). { intros a b S. inversion S as [| |? ? t N1 N2| | |]; subst. cbn in N1, N2. rewrite <-N2 in N1. injection N1 as N1. unfold enc_int in N1. apply (inj (pretty (A := Z))) in N1. lia. }
  apply SJ in X1, X2, X4. apply IJ in X3. subst. rewrite (located_id _ _ _ L), (located_id _ _ _ L'). rewrite H4 in L2. rewrite H4' in L2'. congruence.
Qed.
Lemma mean_app `{FloatFmt} `{ExprEnv} sortv p q : forall l R, stages_mean sortv (p ++ q)%list l R -> exists l', stages_mean sortv p l l' /\ stages_mean sortv q l' R.
Proof.
  induction p as [|s p IH]; intros l R HM; [exists l; by split; [apply means_nil|]|]. cbn [app] in HM. inversion HM as [|? ? ? l1 l2 ? P1 M1 M2]; subst. apply IH in M2 as (l' & M2 & M3). exists l'. split; [|done]. by eapply means_cons.
Qed.
Lemma on_app `{FloatFmt} `{ExprEnv} (Qm Q' : jobj -> Prop) p q : forall Q, stages_on Q p Qm -> stages_on Qm q Q' -> p <> [] -> stages_on Q (p ++ q)%list Q'.
Proof.
  induction p as [|s p IH]; intros Q H1 H2 Hp; [done|]. cbn [app stages_on] in *. destruct H1 as (Q1 & S1 & H1). destruct p as [|s' p].
  - cbn [app stages_on] in *. exists Qm. split; [|done]. revert S1. unfold stage_on, a_doc. destruct (st_kind s); try done.
    + intros S1 d Hd. destruct (S1 d Hd) as (b & ? & ?). exists b. auto.
    + intros S1 d Hd. destruct (S1 d Hd) as (b & ? & ? & ?). exists b. auto.
    + intros S1 d Hd. destruct (S1 d Hd) as (? & l & ? & F). split; [done|]. exists l. split; [done|]. eapply Forall_impl; [exact F|]. intros x [? ?]. auto.
    + intros (k & v & E & A & B). exists k, v. split_and!; [done|done|]. intros d vs Hd Hv. destruct (B d vs Hd Hv) as (path & r & ? & ? & ? & ?). exists path, r. auto.
  - exists Q1. split; [done|]. by apply IH.
Qed.
Lemma flat_map_single {A B} (f : A -> list B) l x : NoDup l -> In x l -> (forall y, In y l -> y <> x -> f y = []) -> flat_map f l = f x.
Proof.
  induction l as [|a l IH]; intros ND Hx H; [done|]. apply NoDup_cons in ND as [Hn ND]. cbn [flat_map]. destruct Hx as [->|Hx].
  - rewrite (flat_map_in f (fun _ => []) l); [|intros y Hy; apply H; [by right|intros ->; by apply Hn, elem_of_list_In]]. assert (E : flat_map (fun _ : A => [] : list B) l = []) by (clear; by induction l). by rewrite E, app_nil_r.
  - rewrite (H a); [|by left|intros ->; by apply Hn, elem_of_list_In]. cbn [app]. apply IH; [done|done|]. intros y Hy. apply H. by right.
Qed.

Section gather.
Context {FF : FloatFmt} {EE : ExprEnv}.
Hypothesis HP : reads_fields.
Hypothesis HF : sets_fields.
Hypothesis HQ : reads_quoted.
Hypothesis HO : is_order iterate.
Hypothesis HE : env_clean.
Notation yes := (fun _ : jobj => True).

(** *** Expressions *)
Lemma ga_project_gives sv es : base sv -> slice_ok es -> projected ga_project (comb sv es) (gdoc (ns_at sv) (name_at sv) (at_ ["endpoints"] es) (gid sv) (at_ ["spec"] sv)).
Proof.
  intros ((ns & n & A1 & A2 & A3 & A4) & NV) (_ & D1 & _). destruct (view_spec sv (named_view_ok sv NV)) as (_ & HS & _).
  destruct NV as (svc & pr & k & H1 & H2 & H3 & (P1 & P2 & P3) & H4 & H5 & H6). rewrite <-(ports_at sv ["protocol"]) in P1. rewrite <-(ports_at sv ["port"]) in P3.
  left. unfold eval_doc. rewrite (str_at_is _ _ _ A1), (str_at_is _ _ _ A2).
  assert (gives ga_project (Ctx (JMap (comb sv es)) JNull) (JMap (gdoc ns n (at_ ["endpoints"] es) (gid sv) (at_ ["spec"] sv)))) as ->; [|done]. unfold ga_project, gdoc.
  apply (many_gives HO _ _ [at_ ["endpoints"] es; gid sv; JMap [("name", JStr n); ("namespace", JStr ns)]; at_ ["spec"] sv]); [vm_compute; reflexivity| |reflexivity].
  repeat (apply Forall2_cons_2; [split|]); [..|apply Forall2_nil_2]; cbn [snd].
  - by_path HP ["EndpointSlice"; "endpoints"]; [|reflexivity]. change (is_str "@now" (at_ ["endpoints"] es) = false). by apply value_now, list_value.
  - by apply value_inert, list_value.
  - unfold ga_id, gid. apply (many_gives HO _ _ [at_ ["spec"; "serviceName"] sv; at_ ["metadata"; "namespace"] sv; at_ ["spec"; "ports"; "port"] sv; at_ ["spec"; "ports"; "protocol"] sv; at_ ["spec"; "type"] sv]); [vm_compute; reflexivity| |reflexivity].
    repeat (apply Forall2_cons_2; [split|]); [..|apply Forall2_nil_2]; cbn [snd].
    + by_path HP ["ServiceView"; "spec"; "serviceName"]; [|reflexivity]. change (is_str "@now" (at_ ["spec"; "serviceName"] sv) = false). rewrite H1. by apply text_now.
    + rewrite H1. by apply text_inert.
    + by_path HP ["ServiceView"; "metadata"; "namespace"]; [|reflexivity]. change (is_str "@now" (at_ ["metadata"; "namespace"] sv) = false). rewrite A1. by apply text_now.
    + rewrite A1. by apply text_inert.
    + by_path HP ["ServiceView"; "spec"; "ports"; "port"]; [|reflexivity]. change (is_str "@now" (at_ ["spec"; "ports"; "port"] sv) = false). by rewrite P3.
    + by rewrite P3.
    + by_path HP ["ServiceView"; "spec"; "ports"; "protocol"]; [|reflexivity]. change (is_str "@now" (at_ ["spec"; "ports"; "protocol"] sv) = false). rewrite P1. by apply text_now, word_text.
    + rewrite P1. by apply text_inert, word_text.
    + by_path HP ["ServiceView"; "spec"; "type"]; [|reflexivity]. change (is_str "@now" (at_ ["spec"; "type"] sv) = false). by apply value_now.
    + by apply value_inert.
  - exact I.
  - apply (two_gives HO "name" "namespace" _ _ _ (JStr n) (JStr ns)); [reflexivity| | | | |reflexivity].
    + by_path HP ["ServiceView"; "metadata"; "name"]; change (is_str "@now" (at_ ["metadata"; "name"] sv) = false) || exact A2. rewrite A2. by apply text_now.
    + by apply text_inert.
    + by_path HP ["ServiceView"; "metadata"; "namespace"]; change (is_str "@now" (at_ ["metadata"; "namespace"] sv) = false) || exact A1. rewrite A1. by apply text_now.
    + by apply text_inert.
  - exact I.
  - by_path HP ["ServiceView"; "spec"]; [|reflexivity]. change (is_str "@now" (at_ ["spec"] sv) = false). by apply value_now.
  - by apply value_inert.
Qed.
Lemma ga_ready_gives ns n e id spec : endpoint_ok e -> eval_doc ep_ready (gdoc ns n e id spec) = Some (JBool (is_true (at_path ["conditions"; "ready"] e))).
Proof.
  intros H. destruct e as [| | | | | |e]; try done. destruct H as (H & _). unfold eval_doc, ep_ready.
  change (eval (opl "@eq" [strE "$.endpoints.conditions.ready"; boolE true]) (Ctx (JMap (gdoc ns n (JMap e) id spec)) JNull))
    with (rbind (eval (listE [strE "$.endpoints.conditions.ready"; boolE true]) (Ctx (JMap (gdoc ns n (JMap e) id spec)) JNull)) op_eq).
  assert (gives (listE [strE "$.endpoints.conditions.ready"; boolE true]) (Ctx (JMap (gdoc ns n (JMap e) id spec)) JNull) (JList [at_path ["conditions"; "ready"] (JMap e); JBool true])) as ->.
  { rewrite <-(unpack_id [at_path ["conditions"; "ready"] (JMap e); JBool true]) by by destruct (at_path _ _). apply list_gives. apply Forall2_cons_2; [|apply Forall2_cons_2; [reflexivity|apply Forall2_nil_2]].
    by_path HP ["endpoints"; "conditions"; "ready"]; [|reflexivity]. change (is_str "@now" (at_path ["conditions"; "ready"] (JMap e)) = false). by destruct (at_path _ _). }
  cbn [rbind]. destruct (at_path ["conditions"; "ready"] (JMap e)); try done. by destruct b.
Qed.
Lemma at_added ns n e v id spec : at_ ["endpoints"; "addresses"] (gdoc ns n (JMap (mset e "addresses" v)) id spec) = v.
Proof. change (match mget (mset e "addresses" v) "addresses" with Some v => at_path [] v | None => JNull end = v). by rewrite mget_set_eq. Qed.
Lemma ga_key_gives sv d : ga_at sv d -> eval_doc ga_k d = Some (gid sv) /\ eval_doc ga_v d = Some (at_ ["endpoints"; "addresses"] d) /\ gather_key ga_k ga_v d = enc (gid sv).
Proof.
  intros (e & a & (n & ->) & T).
  assert (E1 : eval_doc ga_k (gdoc (ns_at sv) n (JMap (mset e "addresses" (JStr a))) (gid sv) (at_ ["spec"] sv)) = Some (gid sv)).
  { unfold eval_doc. assert (gives ga_k (Ctx (JMap (gdoc (ns_at sv) n (JMap (mset e "addresses" (JStr a))) (gid sv) (at_ ["spec"] sv))) JNull) (gid sv)) as ->; [|done]. by_path HP ["id"]; reflexivity. }
  assert (E2 : eval_doc ga_v (gdoc (ns_at sv) n (JMap (mset e "addresses" (JStr a))) (gid sv) (at_ ["spec"] sv)) = Some (JStr a)).
  { unfold eval_doc. assert (gives ga_v (Ctx (JMap (gdoc (ns_at sv) n (JMap (mset e "addresses" (JStr a))) (gid sv) (at_ ["spec"] sv))) JNull) (JStr a)) as ->; [|done].
    by_path HP ["endpoints"; "addresses"]; [|apply at_added]. rewrite at_added. by apply text_now. }
  rewrite at_added. split_and!; [exact E1|exact E2|]. unfold gather_key. by rewrite E1, E2.
Qed.
Lemma ga_sets sv d vs r : ga_at sv d -> set_raw "$.endpoints.addresses" (JList vs) d = Some r -> exists e, from_view sv (JMap (mset e "addresses" (JList vs))) r.
Proof.
  intros (e & a & (n & ->) & T) H. eexists _, n.
  assert (E : set_raw ("$" +:+ dotted ["endpoints"; "addresses"]) (JList vs) (gdoc (ns_at sv) n (JMap (mset e "addresses" (JStr a))) (gid sv) (at_ ["spec"] sv))
    = Some (gdoc (ns_at sv) n (JMap (mset (mset e "addresses" (JStr a)) "addresses" (JList vs))) (gid sv) (at_ ["spec"] sv))) by (apply HF; [words|reflexivity]).
  change ("$" +:+ dotted ["endpoints"; "addresses"]) with "$.endpoints.addresses" in E. rewrite E in H. by injection H as <-.
Qed.
Lemma ga_sets_ok sv d vs : ga_at sv d -> is_Some (set_raw "$.endpoints.addresses" (JList vs) d).
Proof.
  intros (e & a & (n & ->) & T). eexists. change "$.endpoints.addresses" with ("$" +:+ dotted ["endpoints"; "addresses"]). apply HF; [words|reflexivity].
Qed.
Lemma ga_final_gives sv e vs d : base sv -> from_view sv (JMap (mset e "addresses" (JList vs))) d -> eval_doc ga_final d = Some (JMap (doc3 (ns_at sv) (name_at sv) (gspec (JList vs) sv))).
Proof.
  intros ((ns & n & A1 & A2 & A3 & A4) & svc & pr & k & H1 & H2 & H3 & (P1 & P2 & P3) & H4 & H5 & H6) (n0 & ->). rewrite <-(ports_at sv ["protocol"]) in P1. rewrite <-(ports_at sv ["port"]) in P3.
  rewrite (str_at_is _ _ _ A1), (str_at_is _ _ _ H4). unfold eval_doc. set (d := gdoc _ _ _ _ _).
  assert (gives ga_final (Ctx (JMap d) JNull) (JMap (doc3 ns (full_name svc pr k) (gspec (JList vs) sv)))) as ->; [|done]. unfold ga_final, doc3.
  apply (two_gives HO "metadata" "spec" _ _ _ (JMap [("name", JStr (full_name svc pr k)); ("namespace", JStr ns)]) (gspec (JList vs) sv)); [reflexivity| |exact I| |exact I|reflexivity].
  - apply (two_gives HO "name" "namespace" _ _ _ (JStr (full_name svc pr k)) (JStr ns)); [reflexivity| | | | |reflexivity].
    + change (full_name svc pr k) with (String.concat "" [svc; "-"; pr; "-"; enc_int (Z.of_nat k)]). unfold ga_name. apply (concat_all _ _ [JStr svc; JStr "-"; JStr pr; JStr "-"; JInt (Z.of_nat k)]).
      * repeat (apply Forall2_cons_2; [first [by apply lit_gives|idtac]|]); [..|apply Forall2_nil_2].
        -- by_path HP ["id"; "name"]; change (is_str "@now" (at_ ["spec"; "serviceName"] sv) = false) || exact H1. rewrite H1. by apply text_now.
        -- by_path HP ["id"; "protocol"]; change (is_str "@now" (at_ ["spec"; "ports"; "protocol"] sv) = false) || exact P1. rewrite P1. by apply text_now, word_text.
        -- by_path HP ["id"; "port"]; change (is_str "@now" (at_ ["spec"; "ports"; "port"] sv) = false) || exact P3. by rewrite P3.
      * done.
      * repeat (apply Forall2_cons_2; [first [by left|right; by eexists]|]). apply Forall2_nil_2.
    + by apply text_inert, full_text.
    + by_path HP ["metadata"; "namespace"]; [by apply text_now|reflexivity].
    + by apply text_inert.
  - unfold ga_fields, gspec. apply (many_gives HO _ _ [JList vs; at_ ["spec"; "ports"; "port"] sv; at_ ["spec"; "ports"; "protocol"] sv; at_ ["spec"; "serviceName"] sv; at_ ["spec"; "ports"; "targetPort"] sv; at_ ["spec"; "type"] sv]); [vm_compute; reflexivity| |reflexivity].
    assert (X : forall l, at_ ("spec" :: l) d = at_ ("spec" :: l) sv) by (intros l; rewrite (spec_at sv l); reflexivity).
    repeat (apply Forall2_cons_2; [split|]); [..|apply Forall2_nil_2]; cbn [snd].
    + by_path HP ["endpoints"; "addresses"]; unfold d; rewrite at_added; done.
    + exact I.
    + by_path HP ["spec"; "ports"; "port"]; rewrite (X ["ports"; "port"]); [by rewrite P3|done].
    + by rewrite P3.
    + by_path HP ["spec"; "ports"; "protocol"]; rewrite (X ["ports"; "protocol"]); [|done]. rewrite P1. by apply text_now, word_text.
    + rewrite P1. by apply text_inert, word_text.
    + by_path HP ["spec"; "serviceName"]; rewrite (X ["serviceName"]); [|done]. rewrite H1. by apply text_now.
    + rewrite H1. by apply text_inert.
    + by_path HP ["spec"; "ports"; "targetPort"]; rewrite (X ["ports"; "targetPort"]); [|done]. by apply value_now.
    + by apply value_inert.
    + by_path HP ["spec"; "type"]; rewrite (X ["type"]); [|done]. by apply value_now.
    + by apply value_inert.
Qed.

(** *** Stages *)
Definition ga_g : jobj -> list jobj := fun d => flat_map (fun d => flat_map (fun d => flat_map (fun d => flat_map (fun x => [x]) (ga_g4 d)) (ep_g3 d)) (ga_g2 d)) (ga_g1 d).
Lemma ga_chain : chain ga_q0 ga_pre ga_g ga_q4.
Proof.
  unfold ga_g. apply (chain_cons _ ga_q1); [done| |].
  { intros d [_ (sv & es & -> & B & S)]. change (ga_g1 (comb sv es)) with [gdoc (ns_at sv) (name_at sv) (at_ ["endpoints"] es) (gid sv) (at_ ["spec"] sv)]. split.
    - eexists. split; [by apply ga_project_gives|]. reflexivity.
    - apply List.Forall_cons; [|apply List.Forall_nil]. exists sv, (at_ ["endpoints"] es). destruct S as (_ & S1 & S2). split_and!; [done|by eexists|done|done]. }
  apply (chain_cons _ ga_q2); [done| |].
  { intros d [_ (sv & eps & B & (n & ->) & E1 & E2)]. split.
    - apply (unwind_does HP HF ["endpoints"] (gdoc (ns_at sv) n eps (gid sv) (at_ ["spec"] sv)) n (fun i e => gdoc (ns_at sv) (port_name n i) e (gid sv) (at_ ["spec"] sv))); [done|words|done|done|].
      intros i v _. exists (gdoc (ns_at sv) n v (gid sv) (at_ ["spec"] sv)). split_and!; reflexivity.
    - apply List.Forall_forall. intros x Hx. apply in_imap in Hx as (i & e & He & ->). exists sv, e. split_and!; [done|by eexists|].
      rewrite List.Forall_forall in E2. apply E2. apply elem_of_list_In. by apply (elem_of_list_lookup_2 _ i). }
  apply (chain_cons _ ga_q2); [done| |].
  { intros d [_ Q]. pose proof Q as (sv & e & B & (n & ->) & E). split.
    - eexists. split; [by apply ga_ready_gives|]. reflexivity.
    - unfold ep_g3. destruct (is_true _); [|apply List.Forall_nil]. apply List.Forall_cons; [exact Q|apply List.Forall_nil]. }
  apply (chain_cons _ ga_q4); [done| |by apply chain_nil].
  intros d [_ (sv & e & B & (n & ->) & E)]. destruct e as [| | | | | |e]; try done. destruct E as (_ & E1 & E2). split.
  - apply (unwind_does HP HF ["endpoints"; "addresses"] (gdoc (ns_at sv) n (JMap e) (gid sv) (at_ ["spec"] sv)) n (fun i a => gdoc (ns_at sv) (port_name n i) (JMap (mset e "addresses" a)) (gid sv) (at_ ["spec"] sv))); [done|words|exact E1|done|].
    intros i v _. exists (gdoc (ns_at sv) n (JMap (mset e "addresses" v)) (gid sv) (at_ ["spec"] sv)). split_and!; reflexivity.
  - apply List.Forall_forall. intros x Hx. apply in_imap in Hx as (i & a & Ha & ->). rewrite List.Forall_forall in E2. specialize (E2 a ltac:(apply elem_of_list_In; by apply (elem_of_list_lookup_2 _ i))).
    destruct a as [| | | |a| |]; try done. exists sv. split; [done|]. exists e, a. split; [by eexists|done].
Qed.
Lemma map_imap_id {A B} (f : nat -> A -> B) (g : B -> A) l : (forall i a, In a l -> g (f i a) = a) -> map g (imap f l) = l.
Proof. revert f. induction l as [|a l IH]; intros f H; [done|]. cbn [imap map]. rewrite (H 0%nat a) by (by left). f_equal. apply (IH (fun i => f (S i))). intros i x Hx. apply H. by right. Qed.
(** What a pair of a view and a slice becomes. *)
Lemma ga_total sv es : slice_ok es -> Forall (ga_at sv) (ga_g (comb sv es)) /\ map (fun d : jobj => at_ ["endpoints"; "addresses"] d) (ga_g (comb sv es)) = ready_addresses es.
Proof.
  intros (_ & S1 & S2). unfold ga_g. change (ga_g1 (comb sv es)) with [gdoc (ns_at sv) (name_at sv) (at_ ["endpoints"] es) (gid sv) (at_ ["spec"] sv)]. cbn [flat_map]. rewrite app_nil_r. unfold ga_g2 at 1 2.
  change (at_ ["endpoints"] (gdoc (ns_at sv) (name_at sv) (at_ ["endpoints"] es) (gid sv) (at_ ["spec"] sv))) with (at_ ["endpoints"] es).
  change (ns_at (gdoc (ns_at sv) (name_at sv) (at_ ["endpoints"] es) (gid sv) (at_ ["spec"] sv))) with (ns_at sv). change (name_at (gdoc (ns_at sv) (name_at sv) (at_ ["endpoints"] es) (gid sv) (at_ ["spec"] sv))) with (name_at sv).
  change (at_ ["id"] (gdoc (ns_at sv) (name_at sv) (at_ ["endpoints"] es) (gid sv) (at_ ["spec"] sv))) with (gid sv). change (at_ ["spec"] (gdoc (ns_at sv) (name_at sv) (at_ ["endpoints"] es) (gid sv) (at_ ["spec"] sv))) with (at_ ["spec"] sv).
  rewrite List.Forall_forall in S2.
  assert (G4 : forall n e, ga_g4 (gdoc (ns_at sv) n (JMap e) (gid sv) (at_ ["spec"] sv)) = imap (fun j a => gdoc (ns_at sv) (port_name n j) (JMap (mset e "addresses" a)) (gid sv) (at_ ["spec"] sv)) (items (at_path ["addresses"] (JMap e)))) by reflexivity.
  assert (G3 : forall n e, ep_g3 (gdoc (ns_at sv) n e (gid sv) (at_ ["spec"] sv)) = if is_true (at_path ["conditions"; "ready"] e) then [gdoc (ns_at sv) n e (gid sv) (at_ ["spec"] sv)] else []) by reflexivity.
  split.
  - apply List.Forall_forall. intros x Hx. apply in_flat_map in Hx as (d & Hd & Hx). apply in_imap in Hd as (i & e & He & ->).
    specialize (S2 e ltac:(apply elem_of_list_In; by apply (elem_of_list_lookup_2 _ i))). destruct e as [| | | | | |e]; try done. destruct S2 as (_ & A1 & A2). rewrite G3 in Hx. destruct (is_true _); [|done].
    cbn [flat_map] in Hx. rewrite app_nil_r, flat_map_one, G4 in Hx. apply in_imap in Hx as (j & a & Ha & ->). rewrite List.Forall_forall in A2. specialize (A2 a ltac:(apply elem_of_list_In; by apply (elem_of_list_lookup_2 _ j))).
    destruct a as [| | | |a| |]; try done. exists e, a. split; [by eexists|done].
  - unfold ready_addresses. rewrite map_flat_map. apply flat_map_imap. intros i e He. specialize (S2 e He). destruct e as [| | | | | |e]; try done. rewrite G3. destruct (is_true _); [|done].
    cbn [flat_map]. rewrite app_nil_r, flat_map_one, G4. apply map_imap_id. intros j a Ha. apply at_added.
Qed.
Notation ga_history := (Forall (fun d : delta => gather_object (stripped (d_obj d)))).
Lemma ga_endpoints ds : ga_history ds -> Forall (fun d : delta => endpoint_object (stripped (d_obj d))) ds.
Proof. intros H. eapply Forall_impl; [exact H|]. intros d. apply gather_endpoint. Qed.
Lemma ga_view_in {ds d} : history_ok clean ep_sources ∅ ds -> ga_history ds -> In d (of_kind "ServiceView" (after ds)) -> base d /\ clean d = true.
Proof.
  intros HH HC Hd. destruct (of_kind_in _ _ "ServiceView" _ ltac:(done) HH Hd) as (K & C & x & Hx). assert (gather_object d) as (L & V & _) by (by eapply (after_all gather_object)). split; [split; [done|by apply V]|done].
Qed.
Lemma ga_kind_names ds : history_ok clean ep_sources ∅ ds -> ga_history ds -> one_per_name (of_kind "ServiceView" (after ds)).
Proof.
  intros HH HC. apply (kind_names ep_sources); [done| |].
  - apply NoDup_ListNoDup. repeat (constructor; [vm_compute; intuition discriminate|]). constructor.
  - eapply Forall_impl; [exact HC|]. clear. intros d ((ns & n & H) & _). eexists. by apply (located_id _ ns n).
Qed.
Lemma ga_clean : Forall stage_clean ga_stages.
Proof. repeat (apply List.Forall_cons; [apply (C51_tidy _ _ HE); vm_compute; reflexivity|]). apply List.Forall_nil. Qed.
Lemma ga_pre_clean : Forall stage_clean ga_pre.
Proof. repeat (apply List.Forall_cons; [apply (C51_tidy _ _ HE); vm_compute; reflexivity|]). apply List.Forall_nil. Qed.
Definition fin (d : jobj) : jobj := match eval_doc ga_final d with Some (JMap r) => r | _ => [] end.
Notation ga_row sv vs := (doc3 (ns_at sv) (name_at sv) (gspec (JList vs) sv)).
Lemma row_id sv vs : base sv -> doc_id (ga_row sv vs) = doc_id sv.
Proof. intros ((ns & n & L) & _). rewrite (located_id _ _ _ L). destruct L as (L1 & L2 & L3 & L4). rewrite (str_at_is _ _ _ L1), (str_at_is _ _ _ L2). destruct n as [|c n]; [done|]. reflexivity. Qed.
Lemma ga_mean sortv ds R : (forall l, Permutation (sortv l) l) -> fmt_ok -> history_ok clean ep_sources ∅ ds -> ga_history ds -> yields sortv ep_sources ga_stages (after ds) R ->
  NoDup (map doc_id R)
  /\ (forall r, In r R -> exists sv vs, In sv (of_kind "ServiceView" (after ds)) /\ addresses_of sv (after ds) <> [] /\ Permutation vs (addresses_of sv (after ds)) /\ r = ga_row sv vs)
  /\ forall sv, In sv (of_kind "ServiceView" (after ds)) -> addresses_of sv (after ds) <> [] -> exists vs, Permutation vs (addresses_of sv (after ds)) /\ In (ga_row sv vs) R.
Proof.
  intros HS Hf HH HC (l & [_ ->] & HM). pose proof (ga_endpoints ds HC) as HC'. pose proof (ga_kind_names ds HH HC) as HK.
  assert (HB : forall sv es, In sv (of_kind "ServiceView" (after ds)) -> In es (of_kind "EndpointSlice" (after ds)) -> holds ep_join (comb sv es) = belongs sv es).
  { intros sv es H1 H2. destruct (view_in HH HC' H1) as (L1 & V & _), (slice_in HH HC' H2) as (L2 & S & _). unfold holds. rewrite (ep_join_gives HP HQ) by done. by destruct (belongs sv es). }
  apply mean_app in HM as (D & HM1 & HM). apply (chain_means _ _ _ _ _ ga_chain ga_pre_clean) in HM1.
  2: { apply List.Forall_forall. intros d Hd. apply filter_In in Hd as [Hd _]. apply in_map_iff in Hd as (x & <- & Hx). apply picks_in in Hx.
    apply Forall2_cons_inv_r in Hx as (sv & y & H1 & Hx & ->). apply Forall2_cons_inv_r in Hx as (es & z & H2 & Hx & ->). apply Forall2_nil_inv_r in Hx as ->.
    destruct (ga_view_in HH HC H1) as (B & C1), (slice_in HH HC' H2) as (L2 & S & C2). split; [by apply comb_clean|]. by exists sv, es. }
  rewrite flat_map_filter, flat_map_of_map in HM1. cbn [map] in HM1. rewrite flat_map_picks in HM1.
  set (V := of_kind "ServiceView" (after ds)) in *. set (S := of_kind "EndpointSlice" (after ds)) in *. set (K := fun sv => flat_map (fun es => if belongs sv es then ga_g (comb sv es) else []) S).
  assert (HM2 : Permutation (flat_map K V) D).
  { rewrite <-HM1. match goal with |- Permutation ?a ?b => enough (a = b) as -> by done end. apply flat_map_in. intros sv H1. apply flat_map_in. intros es H2. change ((if belongs sv es then ga_g (comb sv es) else []) = (if holds ep_join (comb sv es) then ga_g (comb sv es) else [])). by rewrite (HB sv es H1 H2). }
  clear HM1. rename HM2 into HD. 
  assert (KA : forall sv, In sv V -> Forall (ga_at sv) (K sv) /\ map (fun d : jobj => at_ ["endpoints"; "addresses"] d) (K sv) = addresses_of sv (after ds)).
  { intros sv H1. unfold K, addresses_of. split.
    - apply List.Forall_forall. intros x Hx. apply in_flat_map in Hx as (es & H2 & Hx). destruct (belongs sv es); [|done]. destruct (slice_in HH HC' H2) as (L2 & Sk & C2). destruct (ga_total sv es Sk) as [F _]. by eapply List.Forall_forall in F.
    - rewrite map_flat_map. apply flat_map_in. intros es H2. destruct (belongs sv es); [|done]. destruct (slice_in HH HC' H2) as (L2 & Sk & C2). by destruct (ga_total sv es Sk) as [_ F]. }
  assert (INJ : forall sv sv' j, In sv V -> In sv' V -> enc (gid sv) = Some j -> enc (gid sv') = Some j -> sv = sv').
  { intros sv sv' j H1 H2 E1 E2. destruct (ga_view_in HH HC H1) as [B1 C1], (ga_view_in HH HC H2) as [B2 C2]. apply (names_inj _ _ _ HK H1 H2). by eapply gid_inj. }
  assert (VAL : forall sv j, In sv V -> enc (gid sv) = Some j -> gather_values ga_k ga_v j (flat_map K V) = addresses_of sv (after ds)).
  { intros sv j H1 E1. unfold gather_values. rewrite flat_map_flat. rewrite (flat_map_single _ V sv).
    - destruct (KA sv H1) as [F <-]. rewrite map_one. apply flat_map_in. intros x Hx. rewrite List.Forall_forall in F. destruct (ga_key_gives sv x (F x Hx)) as (_ & -> & E). rewrite decide_True; [done|]. by rewrite E.
    - by apply names_nodup.
    - done.
    - intros y Hy Hn. rewrite (flat_map_in _ (fun _ => [])); [by induction (K y)|]. intros x Hx. destruct (KA y Hy) as [F _]. rewrite List.Forall_forall in F. destruct (ga_key_gives y x (F x Hx)) as (_ & _ & E). rewrite decide_False; [done|].
      rewrite E. intros E2. apply Hn. by eapply INJ. }
  inversion HM as [|s1 p1 la l1 l2 lb P1 M1 M2]; subst. inversion M2 as [|s2 p2 lc l2' l3 ld P2 M3 M4]; subst. inversion M4 as [le lf P3|]; subst. clear HM M2 M4.
  destruct M1 as (k & v & [= <- <-] & (groups & -> & ND & HI & HG)).
  assert (HD1 : Permutation (flat_map K V) l1) by (by rewrite HD). clear P1 HD D.
  assert (HG' : forall j r, In (j, r) groups -> exists sv vs, In sv V /\ enc (gid sv) = Some j /\ addresses_of sv (after ds) <> [] /\ Permutation vs (addresses_of sv (after ds)) /\ eval_doc ga_final r = Some (JMap (ga_row sv vs))).
  { intros j r Hr. destruct (HG j r Hr) as (path & x & vs & Hp & Hx & Hk & Hvs & Hset). injection Hp as <-. apply (Permutation_in _ (Permutation_sym HD1)), in_flat_map in Hx as (sv & H1 & Hx).
    destruct (KA sv H1) as [F EA]. pose proof F as F'. rewrite List.Forall_forall in F'. specialize (F' x Hx). destruct (ga_key_gives sv x F') as (_ & _ & E). rewrite E in Hk. destruct (ga_sets sv x _ r F' Hset) as (e & Hr').
    destruct (ga_view_in HH HC H1) as [B1 _]. eexists sv, _. split_and!; [done|done| | |by eapply ga_final_gives].
    - rewrite <-EA. destruct (K sv); [done|]. by cbn [map].
    - assert (Permutation vs (addresses_of sv (after ds))) as Hv. { rewrite Hvs, (gather_values_perm _ _ _ _ _ (Permutation_sym HD1)). by rewrite (VAL sv j). }
      destruct vs as [|v1 [|v2 vs]]; [done|done|]. by rewrite HS. }
  assert (E3 : Permutation (map (fun g => fin g.2) groups) R).
  { rewrite <-P3. assert (l3 = flat_map (fun d => [fin d]) l2') as ->.
    - eapply does_acts; [|exact M3]. intros d Hd. apply (Permutation_in _ (Permutation_sym P2)), in_map_iff in Hd as ([j r] & <- & Hr). cbn [snd]. destruct (HG' j r Hr) as (sv & vs & _ & _ & _ & _ & E). exists (fin r). unfold fin. rewrite E. split; [by left|done].
    - rewrite <-map_one, <-P2, map_map. done. }
  clear P3 P2 M3.
  assert (FIN : forall j r, In (j, r) groups -> exists sv vs, In sv V /\ enc (gid sv) = Some j /\ addresses_of sv (after ds) <> [] /\ Permutation vs (addresses_of sv (after ds)) /\ fin r = ga_row sv vs).
  { intros j r Hr. destruct (HG' j r Hr) as (sv & vs & ? & ? & ? & ? & E). exists sv, vs. split_and!; try done. unfold fin. by rewrite E. }
  split_and!.
  - rewrite <-E3. clear E3 HI HG HG'. induction groups as [|[j r] groups IH]; [apply NoDup_nil; done|]. cbn [map fst snd] in *. apply NoDup_cons in ND as [Hn ND].
    apply NoDup_cons. split; [|apply IH; [done|intros; apply FIN; by right]]. intros Hin.
    apply elem_of_list_In, in_map_iff in Hin as (r' & Er & Hr'). apply in_map_iff in Hr' as ([j' r2] & <- & Hr'). cbn [snd] in Er.
    destruct (FIN j r (or_introl eq_refl)) as (sv & vs & Hd & Ej & _ & _ & Ef), (FIN j' r2 (or_intror Hr')) as (sv' & vs' & Hd' & Ej' & _ & _ & Ef').
    rewrite Ef, Ef' in Er. destruct (ga_view_in HH HC Hd) as [B1 _], (ga_view_in HH HC Hd') as [B2 _]. rewrite !row_id in Er by done. pose proof (names_inj _ _ _ HK Hd' Hd Er) as ->.
    apply Hn. apply elem_of_list_In, in_map_iff. exists (j', r2). split; [|done]. cbn [fst]. congruence.
  - intros r Hr. apply (Permutation_in _ (Permutation_sym E3)), in_map_iff in Hr as ([j r'] & <- & Hr). cbn [snd]. destruct (FIN j r' Hr) as (sv & vs & ? & _ & ? & ? & ?). by exists sv, vs.
  - intros sv H1 HN. destruct (KA sv H1) as [F EA]. destruct (K sv) as [|x xs] eqn:EK; [by rewrite <-EA in HN|]. destruct (ga_view_in HH HC H1) as [B1 C1]. destruct (enc_finite (gid sv)) as [j Ej]; [by apply jclean_finite, gid_clean|].
    apply Forall_cons in F as [Fx _]. destruct (ga_key_gives sv x Fx) as (_ & _ & E).
    assert (In j (map fst groups)) as Hj. { apply HI. exists x. split; [|by rewrite E]. apply (Permutation_in _ HD1), in_flat_map. exists sv. split; [done|]. rewrite EK. by left. }
    apply in_map_iff in Hj as ([j' r] & Ej' & Hr). cbn [fst] in Ej'. subst j'. destruct (FIN j r Hr) as (sv' & vs & H1' & E' & _ & Hp & Er). pose proof (INJ sv' sv j H1' H1 E' Ej) as ->. exists vs. split; [done|].
    apply (Permutation_in _ E3), in_map_iff. exists (j, r). split; [exact Er|done].
Qed.
Lemma ga_post_on : stages_on ga_q4 ga_post yes.
Proof.
  exists ga_q5. split.
  - exists ga_k, ga_v. split; [done|]. split.
    + intros d [Hc (sv & B & A)]. destruct (ga_key_gives sv d A) as (E1 & E2 & _). eexists _, _. split_and!; [exact E1|exact E2|]. intros _. destruct (enc_finite (gid sv)) as [j Ej]; [|by exists j].
      apply jclean_finite. exact (eval_doc_clean HE ga_k d _ ltac:(vm_compute; reflexivity) Hc E1).
    + intros d vs [Hc (sv & B & A)] HV. destruct (ga_sets_ok sv d vs A) as [r Hr]. exists "$.endpoints.addresses", r. split_and!; [done|exact Hr|]. destruct (ga_sets sv d vs r A Hr) as (e & Hv). split; [|by exists sv, e, vs].
      apply (set_raw_clean HE "$.endpoints.addresses" (JList vs) d r); [done|..|done|exact Hr]. apply clean_list. eapply Forall_impl; [exact HV|]. intros y (d' & (Hc' & _) & Hy). by apply (eval_doc_clean HE ga_v d').
  - exists yes. split; [|done]. intros d [Hc (sv & e & vs & B & A)]. pose proof (ga_final_gives sv e vs d B A) as E. eexists. split; [left; exact E|]. split; [|done].
    exact (eval_doc_clean HE ga_final d _ ltac:(vm_compute; reflexivity) Hc E).
Qed.
Lemma ga_names sortv ds R : (forall l, Permutation (sortv l) l) -> fmt_ok -> history_ok clean ep_sources ∅ ds -> ga_history ds -> yields sortv ep_sources ga_stages (after ds) R -> one_per_name R.
Proof.
  intros HS Hf HH HC HY. destruct (ga_mean sortv ds R HS Hf HH HC HY) as (ND & HI & _). split; [done|]. intros r Hr. destruct (HI r Hr) as (sv & vs & H1 & _ & _ & ->). destruct (ga_view_in HH HC H1) as [B _]. rewrite row_id by done.
  destruct (ga_kind_names ds HH HC) as [_ HN]. by apply HN.
Qed.
Lemma row_out sv vs ns n : located sv ns n -> encapsulate endpoint_view (ga_row sv vs) ns n = gathered_out ns n vs sv.
Proof. intros (L1 & L2 & L3 & L4). rewrite (str_at_is _ _ _ L1), (str_at_is _ _ _ L2). destruct n as [|c n]; [done|]. destruct ns as [|b ns]; [done|]. reflexivity. Qed.
Lemma gathered_hold sortv p pp o ds : (forall l, Permutation (sortv l) l) -> fmt_ok -> fmt_inj ->
  unmarshal_pipeline gather_json = Val p -> declare clean endpoint_view ep_sources p = Some pp -> order_ok o -> history_ok clean ep_sources ∅ ds -> ga_history ds ->
  exists p' outs, pipe_run clean sortv o 0 pp ds = (p', map Some outs)
    /\ forall ns n, match apply_ops no_objects (concat outs) (ns, n) with
         | None => forall sv, In sv (of_kind "ServiceView" (after ds)) -> located sv ns n -> addresses_of sv (after ds) = []
         | Some m => exists sv l, In sv (of_kind "ServiceView" (after ds)) /\ located sv ns n /\ addresses_of sv (after ds) <> []
             /\ Permutation l (addresses_of sv (after ds)) /\ m = gathered_out ns n l sv
         end.
Proof.
  intros HS F1 F2 HU HD Ho HH HC. rewrite gather_stages in HU. injection HU as <-.
  destruct (C51_runs_partial FF EE sortv endpoint_view ep_sources ga_stages pp o ds (fun k d => gather_object d /\ get_kind d = k) yes F1 F2 HS) as (p' & outs & R & HR & HY & HT); try done.
  - apply NoDup_ListNoDup. repeat (constructor; [vm_compute; intuition discriminate|]). constructor.
  - repeat (apply List.Forall_cons; [vm_compute; reflexivity|]). apply List.Forall_nil.
  - apply ga_clean.
  - eapply each_on; [|exact HH|exact HC]. repeat (apply List.Forall_cons; [done|]). apply List.Forall_nil.
  - exists ga_q0. split.
    + intros x F. apply Forall2_cons_inv_l in F as (sv & y & (_ & X1 & K1) & F & ->). apply Forall2_cons_inv_l in F as (es & z & (_ & X2 & K2) & F & ->). apply Forall2_nil_inv_l in F as ->.
      destruct X1 as (L1 & V1 & _), X2 as (L2 & _ & V2). specialize (V1 K1). specialize (V2 K2). eexists. split; [apply (ep_join_gives HP HQ); [done|done|by apply named_view_ok|done]|]. intros _. exists sv, es. split_and!; [done|by split|done].
    + apply (on_app ga_q4); [|exact ga_post_on|done]. apply (chain_on _ _ _ _ ga_chain ga_pre_clean).
  - intros pre post R -> HY. apply history_app in HH as [HH _]. apply Forall_app in HC as [HC _]. by apply (ga_names sortv pre).
  - exists p', outs. split; [done|]. destruct (ga_mean sortv ds R HS F1 HH HC HY) as (_ & HI & HJ). intros ns n. destruct (apply_ops no_objects (concat outs) (ns, n)) as [m|] eqn:ET.
    + apply HT in ET as (r & Hr & Hi & ->). destruct (HI r Hr) as (sv & vs & H1 & HN & Hp & ->). destruct (ga_view_in HH HC H1) as [B _]. rewrite row_id in Hi by done. pose proof B as ((ns' & n' & L) & _). rewrite (located_id _ _ _ L) in Hi. injection Hi as -> ->.
      exists sv, vs. split_and!; try done. by apply row_out.
    + intros sv H1 L. destruct (addresses_of sv (after ds)) as [|a l] eqn:EA; [done|]. exfalso. destruct (HJ sv H1) as (vs & Hp & Hr); [by rewrite EA|]. destruct (ga_view_in HH HC H1) as [B _].
      assert (apply_ops no_objects (concat outs) (ns, n) = Some (gathered_out ns n vs sv)) as E; [|congruence]. apply HT. exists (ga_row sv vs). split_and!; [done|rewrite row_id by done; by apply located_id|]. symmetry. by apply row_out.
Qed.
End gather.
