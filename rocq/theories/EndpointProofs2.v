(** The second controller of the EndpointSlice example. *)
From Verif Require Import JsonModel ObjModel ZSetModel OpsModel ExecModel PipelineModel ValueModel PipeJsonModel StageModel ExampleModel EndpointModel.
From Verif Require Import ExprSpec ZSetSpec OpsSpec ExecSpec JsonSpec CleanSpec PipelineSpec StageSpec StageRunSpec ExampleSpec EndpointSpec.
From Verif Require Import JsonProofs JsonIdent ObjProofs CleanProofs ExprProofs2 ExprProofs3 ConvertProofs PipeProofs PipeProofs2 PipeProofs3 StageNames StageProofs StageClean StageRunProofs DeclProofs PropsExpr PropsStage PropsStageRun ExampleProofs ExampleProofs2 ExampleProofs3 ExampleProofs4 ExampleProofs5 StageChain EndpointProofs.
#[local] Open Scope string_scope.

Definition ep_join : expr :=
  opl "@and"
    [opl "@eq" [strE "$.ServiceView.spec.serviceName"; strE slice_path];
     opl "@eq" [strE "$.ServiceView.metadata.namespace"; strE "$.EndpointSlice.metadata.namespace"]].
Definition ep_project : expr :=
  dictE [("endpoints", strE "$.EndpointSlice.endpoints");
         ("metadata", dictE [("name", strE "$.ServiceView.metadata.name"); ("namespace", strE "$.ServiceView.metadata.namespace")]);
         ("spec", strE "$.ServiceView.spec")].
Definition ep_ready : expr := opl "@eq" [strE "$.endpoints.conditions.ready"; boolE true].
Definition ep_fields : list (string * expr) :=
  [("address", strE "$.endpoints.addresses"); ("port", strE "$.spec.ports.port"); ("protocol", strE "$.spec.ports.protocol");
   ("serviceName", strE "$.spec.serviceName"); ("targetPort", strE "$.spec.ports.targetPort"); ("type", strE "$.spec.type")].
Definition ep_flat : expr := dictE [("metadata", dictE [("namespace", strE "$.metadata.namespace")]); ("spec", dictE ep_fields)].
Definition ep_name : expr := opl "@concat" [strE "$.spec.serviceName"; strE "-"; op1 "@hash" (strE "$.spec")].
Definition ep_final : expr := listE [dictE [("$.", strE "$.")]; dictE [("metadata", dictE [("name", ep_name)])]].
Notation ep_rest :=
  [Stage KProject ep_project; Stage KUnwind (strE "$.endpoints"); Stage KSelect ep_ready; Stage KUnwind (strE "$.endpoints.addresses"); Stage KProject ep_flat; Stage KProject ep_final].
Notation ep_stages := (Stage KJoin ep_join :: ep_rest).
Lemma slices_stages : unmarshal_pipeline slices_json = Val ep_stages.
Proof. reflexivity. Qed.
Notation ep_sources := [service_view; endpoint_slice].

(** The documents between the stages. *)
Definition doc1 (ns n : string) (eps spec : json) : jobj := [("endpoints", eps); ("metadata", JMap [("name", JStr n); ("namespace", JStr ns)]); ("spec", spec)].
Definition spec6 (a spec : json) : json :=
  JMap [("address", a); ("port", at_path ["ports"; "port"] spec); ("protocol", at_path ["ports"; "protocol"] spec);
        ("serviceName", at_path ["serviceName"] spec); ("targetPort", at_path ["ports"; "targetPort"] spec); ("type", at_path ["type"] spec)].
Definition doc2 (ns : string) (spec : json) : jobj := [("metadata", JMap [("namespace", JStr ns)]); ("spec", spec)].
Definition doc3 (ns n : string) (spec : json) : jobj := [("metadata", JMap [("name", JStr n); ("namespace", JStr ns)]); ("spec", spec)].
Definition spec_ok (spec : json) : Prop :=
  (exists svc, at_path ["serviceName"] spec = JStr svc /\ text svc) /\ Forall (fun l => value_ok (at_path l spec)) [["type"]; ["ports"; "port"]; ["ports"; "protocol"]; ["ports"; "targetPort"]].
Definition set_addresses (e a : json) : json := match e with JMap e => JMap (mset e "addresses" a) | _ => e end.

Notation ns_at d := (str_at ["metadata"; "namespace"] d).
Notation name_at d := (str_at ["metadata"; "name"] d).
Notation comb sv es := (combination (map gvk_kind ep_sources) [sv; es]).
Definition ep_g1 (d : jobj) : list jobj :=
  [doc1 (str_at ["ServiceView"; "metadata"; "namespace"] d) (str_at ["ServiceView"; "metadata"; "name"] d) (at_ ["EndpointSlice"; "endpoints"] d) (at_ ["ServiceView"; "spec"] d)].
Definition ep_g2 (d : jobj) : list jobj := imap (fun i e => doc1 (ns_at d) (port_name (name_at d) i) e (at_ ["spec"] d)) (items (at_ ["endpoints"] d)).
Definition ep_g3 (d : jobj) : list jobj := if is_true (at_ ["endpoints"; "conditions"; "ready"] d) then [d] else [].
Definition ep_g4 (d : jobj) : list jobj :=
  imap (fun i a => doc1 (ns_at d) (port_name (name_at d) i) (set_addresses (at_ ["endpoints"] d) a) (at_ ["spec"] d)) (items (at_ ["endpoints"; "addresses"] d)).
Definition ep_g5 (d : jobj) : list jobj := [doc2 (ns_at d) (spec6 (at_ ["endpoints"; "addresses"] d) (at_ ["spec"] d))].

Lemma flat_map_imap {A B C} (f : nat -> A -> B) (g : B -> list C) (h : A -> list C) l : (forall i a, In a l -> g (f i a) = h a) -> flat_map g (imap f l) = flat_map h l.
Proof.
  revert f. induction l as [|a l IH]; intros f H; [done|]. cbn [imap flat_map]. rewrite (H 0%nat a) by (by left). f_equal. apply (IH (fun i => f (S i))). intros i x Hx. apply H. by right.
Qed.
Lemma flat_map_picks {A B} (K : list A -> list B) l1 l2 : flat_map K (picks [l1; l2]) = flat_map (fun a => flat_map (fun b => K [a; b]) l2) l1.
Proof.
  assert (E : picks [l2] = map (fun b => [b]) l2). { induction l2 as [|b l2 IH]; [done|]. change (picks [b :: l2]) with ([b] :: picks [l2]). by rewrite IH. }
  change (picks [l1; l2]) with (flat_map (fun d => map (cons d) (picks [l2])) l1). rewrite E. clear E. induction l1 as [|a l1 IH]; [done|]. cbn [flat_map]. rewrite flat_map_app, IH. f_equal.
  clear IH. induction l2 as [|b l2 IH]; [done|]. cbn [flat_map map]. by rewrite IH.
Qed.
Lemma flat_map_filter {A B} (p : A -> bool) (g : A -> list B) l : flat_map g (List.filter p l) = flat_map (fun x => if p x then g x else []) l.
Proof. induction l as [|x l IH]; [done|]. cbn [List.filter flat_map]. destruct (p x); cbn [flat_map]; by rewrite IH. Qed.
Lemma flat_map_of_map {A B C} (f : A -> B) (g : B -> list C) l : flat_map g (map f l) = flat_map (fun x => g (f x)) l.
Proof. induction l as [|x l IH]; [done|]. cbn [map flat_map]. by rewrite IH. Qed.
Lemma map_flat_map {A B C} (f : B -> C) (g : A -> list B) l : map f (flat_map g l) = flat_map (fun x => map f (g x)) l.
Proof. induction l as [|x l IH]; [done|]. cbn [flat_map]. by rewrite map_app, IH. Qed.
Lemma flat_map_in {A B} (f g : A -> list B) l : (forall x, In x l -> f x = g x) -> flat_map f l = flat_map g l.
Proof. induction l as [|x l IH]; intros H; [done|]. cbn [flat_map]. rewrite H by (by left). f_equal. apply IH. intros y Hy. apply H. by right. Qed.
Lemma map_one {A B} (f : A -> B) l : map f l = flat_map (fun x => [f x]) l.
Proof. induction l as [|x l IH]; [done|]. cbn. by rewrite IH. Qed.
Lemma has_slash_app a b : has_slash a = false -> has_slash b = false -> has_slash (a +:+ b) = false.
Proof.
  intros H Hb. induction a as [|c a IH]; [done|]. change (has_slash (String c (a +:+ b)) = false). rewrite has_slash_cons in *. apply orb_false_elim in H as [-> H]. by rewrite IH.
Qed.
Lemma base36_slash s : base36 s = true -> has_slash s = false.
Proof. induction s as [|c s IH]; [done|]. cbn [base36]. intros [Hc Hs]%andb_prop. rewrite has_slash_cons, (IH Hs), orb_false_r. apply bool_decide_eq_false_2. intros ->. vm_compute in Hc. done. Qed.

Section endpoints.
Context {FF : FloatFmt} {EE : ExprEnv}.
Hypothesis HP : reads_fields.
Hypothesis HF : sets_fields.
Hypothesis HQ : reads_quoted.
Hypothesis HO : is_order iterate.
Hypothesis HE : env_clean.
Notation yes := (fun _ : jobj => True).
Definition ep_g6 (d : jobj) : list jobj :=
  [doc3 (ns_at d) (str_at ["spec"; "serviceName"] d +:+ "-" +:+ hash_of (at_ ["spec"] d)) (at_ ["spec"] d)].

(** *** Expressions *)
Lemma quoted_gives q d v : match q with String c (String c2 (String _ _)) => c = dollar /\ c2 <> dollar | _ => False end ->
  get_raw q (JMap d) = Val v -> value_ok v -> gives (strE q) (Ctx (JMap d) JNull) v.
Proof.
  intros Hq HR HN%value_now. unfold gives. change (eval (strE q) (Ctx (JMap d) JNull)) with (rbind (get_path (Ctx (JMap d) JNull) q) (fun v => Val (if is_str "@now" v then JStr now else v))).
  assert (get_path (Ctx (JMap d) JNull) q = Val v) as ->; [|cbn [rbind]; by rewrite HN].
  destruct q as [|c [|c2 [|c3 q]]]; try done. destruct Hq as [-> Hc]. unfold get_path. rewrite decide_True by done.
  rewrite (decide_False (P := String dollar (String c2 (String c3 q)) = "$.")) by done.
  rewrite (decide_False (P := String dollar (String c2 (String c3 q)) = "$$.")) by (intros [= -> _]; done). by rewrite (bool_decide_eq_false_2 (c2 = dollar)).
Qed.
Definition distinct (l : list string) : bool := bool_decide (NoDup l).
Lemma many_gives m ctx vs r : forallb good_key (map fst m) && distinct (map fst m) = true -> Forall2 (fun kv v => gives kv.2 ctx v /\ inert v) m vs -> r = msets [] (zip (map fst m) vs) -> gives (dictE m) ctx (JMap r).
Proof.
  intros [HK HD%bool_decide_eq_true]%andb_prop H ->. apply (dict_gives m ctx vs HO HD); [|done]. rewrite forallb_forall in HK. apply List.Forall_forall. intros kv Hkv. apply good_key_ok, HK. by apply in_map.
Qed.
Lemma root_gives d : keys_sorted d = true -> msets [] d = d -> gives (dictE [("$.", strE "$.")]) (Ctx (JMap d) JNull) (JMap d).
Proof.
  intros _ Hd. unfold gives. rewrite dict_eval. cbn [map fst snd].
  assert (in_order [("$.", eval (strE "$."))] = [("$.", eval (strE "$."))]) as ->.
  { apply Permutation_length_1_inv. symmetry. apply in_order_perm; [done|]. apply NoDup_singleton. }
  cbn [dict_loop]. assert (eval (strE "$.") (Ctx (JMap d) JNull) = Val (JMap d)) as ->.
  { change (eval (strE "$.") (Ctx (JMap d) JNull)) with (rbind (get_raw "$" (JMap d)) (fun v => Val (if is_str "@now" v then JStr now else v))). destruct HQ as (_ & _ & Q3). by rewrite Q3. }
  cbn [rbind]. unfold set_path. cbn [rbind]. rewrite decide_True by done. cbn [rbind]. assert (foldl (fun (d : jobj) (kv : string * json) => mdel d kv.1) [] d = []) as ->.
  { clear. induction d as [|kv d IH]; [done|]. cbn [foldl]. exact IH. }
  change (foldl (fun (d : jobj) (kv : string * json) => mset d kv.1 kv.2) [] d) with (msets [] d). by rewrite Hd.
Qed.
Lemma ep_join_gives sv es : (exists ns n, located sv ns n) -> (exists ns n, located es ns n) -> view_ok sv -> slice_ok es -> eval_doc ep_join (comb sv es) = Some (JBool (belongs sv es)).
Proof.
  intros (ns1 & n1 & A1 & A2 & A3 & A4) (ns2 & n2 & B1 & B2 & B3 & B4) ((svc & C1 & C2 & _) & _) (D1 & _). destruct HQ as (_ & Q2 & _).
  unfold eval_doc, belongs. rewrite C1, A1. cbn [same_text].
  assert (gives ep_join (Ctx (JMap (comb sv es)) JNull) (JBool (forallb (fun b => b) [is_str svc (service_of es); is_str ns1 (at_ ["metadata"; "namespace"] es)]))) as ->; [|cbn [forallb]; by rewrite andb_true_r].
  unfold ep_join. apply and_gives. repeat (apply Forall2_cons_2; [apply eq_gives|]); [..|apply Forall2_nil_2].
  - by_path HP ["ServiceView"; "spec"; "serviceName"]; change (is_str "@now" (at_ ["spec"; "serviceName"] sv) = false) || exact C1. rewrite C1. by apply text_now.
  - apply quoted_gives; [done|by apply Q2|done].
  - by_path HP ["ServiceView"; "metadata"; "namespace"]; change (is_str "@now" (at_ ["metadata"; "namespace"] sv) = false) || exact A1. rewrite A1. by apply text_now.
  - by_path HP ["EndpointSlice"; "metadata"; "namespace"]; [|reflexivity]. change (is_str "@now" (at_ ["metadata"; "namespace"] es) = false). rewrite B1. by apply text_now.
Qed.
Lemma ep_project_gives sv es : (exists ns n, located sv ns n) -> slice_ok es -> value_ok (at_ ["spec"] sv) -> projected ep_project (comb sv es) (doc1 (ns_at sv) (name_at sv) (at_ ["endpoints"] es) (at_ ["spec"] sv)).
Proof.
  intros (ns & n & A1 & A2 & A3 & A4) (_ & D1 & _) HS. left. unfold eval_doc. rewrite (str_at_is _ _ _ A1), (str_at_is _ _ _ A2).
  assert (gives ep_project (Ctx (JMap (comb sv es)) JNull) (JMap (doc1 ns n (at_ ["endpoints"] es) (at_ ["spec"] sv)))) as ->; [|done]. unfold ep_project, doc1.
  apply (three_gives HO "endpoints" "metadata" "spec" _ _ _ _ (at_ ["endpoints"] es) (JMap [("name", JStr n); ("namespace", JStr ns)]) (at_ ["spec"] sv)); [reflexivity| | | |exact I| | |reflexivity].
  - by_path HP ["EndpointSlice"; "endpoints"]; [|reflexivity]. change (is_str "@now" (at_ ["endpoints"] es) = false). by apply value_now, list_value.
  - by apply value_inert, list_value.
  - apply (two_gives HO "name" "namespace" _ _ _ (JStr n) (JStr ns)); [reflexivity| | | | |reflexivity].
    + by_path HP ["ServiceView"; "metadata"; "name"]; change (is_str "@now" (at_ ["metadata"; "name"] sv) = false) || exact A2. rewrite A2. by apply text_now.
    + by apply text_inert.
    + by_path HP ["ServiceView"; "metadata"; "namespace"]; change (is_str "@now" (at_ ["metadata"; "namespace"] sv) = false) || exact A1. rewrite A1. by apply text_now.
    + by apply text_inert.
  - by_path HP ["ServiceView"; "spec"]; [|reflexivity]. change (is_str "@now" (at_ ["spec"] sv) = false). by apply value_now.
  - by apply value_inert.
Qed.
Lemma ep_ready_gives ns n e spec : endpoint_ok e -> eval_doc ep_ready (doc1 ns n e spec) = Some (JBool (is_true (at_path ["conditions"; "ready"] e))).
Proof.
  intros H. destruct e as [| | | | | |e]; try done. destruct H as (H & _). unfold eval_doc, ep_ready.
  change (eval (opl "@eq" [strE "$.endpoints.conditions.ready"; boolE true]) (Ctx (JMap (doc1 ns n (JMap e) spec)) JNull))
    with (rbind (eval (listE [strE "$.endpoints.conditions.ready"; boolE true]) (Ctx (JMap (doc1 ns n (JMap e) spec)) JNull)) op_eq).
  assert (gives (listE [strE "$.endpoints.conditions.ready"; boolE true]) (Ctx (JMap (doc1 ns n (JMap e) spec)) JNull) (JList [at_path ["conditions"; "ready"] (JMap e); JBool true])) as ->.
  { rewrite <-(unpack_id [at_path ["conditions"; "ready"] (JMap e); JBool true]) by by destruct (at_path _ _). apply list_gives. apply Forall2_cons_2; [|apply Forall2_cons_2; [reflexivity|apply Forall2_nil_2]].
    by_path HP ["endpoints"; "conditions"; "ready"]; [|reflexivity]. change (is_str "@now" (at_path ["conditions"; "ready"] (JMap e)) = false). by destruct (at_path _ _). }
  cbn [rbind]. destruct (at_path ["conditions"; "ready"] (JMap e)); try done. by destruct b.
Qed.
Lemma ep_flat_gives ns n e a spec : text ns -> at_path ["addresses"] e = JStr a -> text a -> spec_ok spec -> projected ep_flat (doc1 ns n e spec) (doc2 ns (spec6 (JStr a) spec)).
Proof.
  intros Hn He Ha ((svc & S1 & S2) & S3). left. unfold eval_doc. assert (gives ep_flat (Ctx (JMap (doc1 ns n e spec)) JNull) (JMap (doc2 ns (spec6 (JStr a) spec)))) as ->; [|done]. unfold ep_flat, doc2.
  apply (two_gives HO "metadata" "spec" _ _ _ (JMap [("namespace", JStr ns)]) (spec6 (JStr a) spec)); [reflexivity| |exact I| |exact I|reflexivity].
  - apply (one_gives HO "namespace"); [reflexivity| |by apply text_inert]. by_path HP ["metadata"; "namespace"]; [|reflexivity]. by apply text_now.
  - apply Forall_cons in S3 as [T1 S3]. apply Forall_cons in S3 as [T2 S3]. apply Forall_cons in S3 as [T3 S3]. apply Forall_cons in S3 as [T4 _].
    unfold spec6. apply (many_gives _ _ [JStr a; at_path ["ports"; "port"] spec; at_path ["ports"; "protocol"] spec; at_path ["serviceName"] spec; at_path ["ports"; "targetPort"] spec; at_path ["type"] spec]); [vm_compute; reflexivity| |reflexivity].
    repeat (apply Forall2_cons_2; [split|]); [..|apply Forall2_nil_2]; cbn [snd].
    + by_path HP ["endpoints"; "addresses"]; change (is_str "@now" (at_path ["addresses"] e) = false) || exact He. rewrite He. by apply text_now.
    + by apply text_inert.
    + by_path HP ["spec"; "ports"; "port"]; [|reflexivity]. change (is_str "@now" (at_path ["ports"; "port"] spec) = false). by apply value_now.
    + by apply value_inert.
    + by_path HP ["spec"; "ports"; "protocol"]; [|reflexivity]. change (is_str "@now" (at_path ["ports"; "protocol"] spec) = false). by apply value_now.
    + by apply value_inert.
    + by_path HP ["spec"; "serviceName"]; [|reflexivity]. change (is_str "@now" (at_path ["serviceName"] spec) = false). rewrite S1. by apply text_now.
    + rewrite S1. by apply text_inert.
    + by_path HP ["spec"; "ports"; "targetPort"]; [|reflexivity]. change (is_str "@now" (at_path ["ports"; "targetPort"] spec) = false). by apply value_now.
    + by apply value_inert.
    + by_path HP ["spec"; "type"]; [|reflexivity]. change (is_str "@now" (at_path ["type"] spec) = false). by apply value_now.
    + by apply value_inert.
Qed.
Lemma hash_gives spec : jclean spec = true -> op_hash spec = Val (JStr (hash_of spec)) /\ base36 (hash_of spec) = true.
Proof.
  intros H. destruct (enc_finite spec) as [js Ej]; [by apply jclean_finite|]. destruct (op_hash spec) as [w| |] eqn:E; [|unfold op_hash in E; by rewrite Ej in E|unfold op_hash in E; by rewrite Ej in E].
  destruct (hash_base36 HE _ _ E) as (s & -> & Hs). unfold hash_of. rewrite E. done.
Qed.
Lemma ep_final_gives ns spec svc : clean (doc2 ns spec) = true -> at_path ["serviceName"] spec = JStr svc -> text svc -> projected ep_final (doc2 ns spec) (doc3 ns (svc +:+ "-" +:+ hash_of spec) spec).
Proof.
  intros HC Hs Ht. right. exists [doc2 ns spec; [("metadata", JMap [("name", JStr (svc +:+ "-" +:+ hash_of spec))])]]. split; [|reflexivity].
  unfold eval_doc. assert (gives ep_final (Ctx (JMap (doc2 ns spec)) JNull) (JList [JMap (doc2 ns spec); JMap [("metadata", JMap [("name", JStr (svc +:+ "-" +:+ hash_of spec))])]])) as ->; [|done].
  unfold ep_final. rewrite <-(unpack_id [JMap (doc2 ns spec); _]) by done. apply list_gives. apply Forall2_cons_2; [|apply Forall2_cons_2; [|apply Forall2_nil_2]].
  - apply root_gives; reflexivity.
  - apply (one_gives HO "metadata"); [reflexivity| |exact I]. apply (one_gives HO "name"); [reflexivity| |].
    + change (svc +:+ "-" +:+ hash_of spec) with (String.concat "" [svc; "-"; hash_of spec]). apply concat_gives.
      apply Forall2_cons_2; [|apply Forall2_cons_2; [by apply lit_gives|apply Forall2_cons_2; [|apply Forall2_nil_2]]].
      * by_path HP ["spec"; "serviceName"]; change (is_str "@now" (at_path ["serviceName"] spec) = false) || exact Hs. rewrite Hs. by apply text_now.
      * destruct (hash_gives spec) as [E _]; [exact (at_clean ["spec"] (JMap (doc2 ns spec)) HC)|]. unfold gives.
        change (eval (op1 "@hash" (strE "$.spec")) (Ctx (JMap (doc2 ns spec)) JNull)) with (rbind (eval (strE "$.spec") (Ctx (JMap (doc2 ns spec)) JNull)) op_hash).
        assert (gives (strE "$.spec") (Ctx (JMap (doc2 ns spec)) JNull) spec) as ->; [|exact E].
        by_path HP ["spec"]; [|reflexivity]. change (is_str "@now" spec = false). by destruct spec.
    + destruct svc as [|c svc]; [done|]. by destruct Ht.
Qed.

(** *** Stages *)
Definition ep_q0 (d : jobj) : Prop := exists sv es, d = comb sv es /\ (exists ns n, located sv ns n) /\ view_ok sv /\ slice_ok es.
Definition ep_q1 (d : jobj) : Prop := exists ns n eps spec, d = doc1 ns n eps spec /\ text ns /\ list_or_null eps /\ Forall endpoint_ok (items eps) /\ spec_ok spec.
Definition ep_q2 (d : jobj) : Prop := exists ns n e spec, d = doc1 ns n e spec /\ text ns /\ endpoint_ok e /\ spec_ok spec.
Definition ep_q4 (d : jobj) : Prop := exists ns n e a spec, d = doc1 ns n e spec /\ text ns /\ at_path ["addresses"] e = JStr a /\ text a /\ spec_ok spec.
Definition ep_q5 (d : jobj) : Prop := exists ns spec svc, d = doc2 ns spec /\ at_path ["serviceName"] spec = JStr svc /\ text svc.
Lemma view_spec sv : view_ok sv -> spec_ok (at_ ["spec"] sv) /\ value_ok (at_ ["spec"] sv) /\ exists svc, at_ ["spec"; "serviceName"] sv = JStr svc.
Proof.
  intros ((svc & H1 & H2 & _) & H3). assert (E : forall l, at_ ("spec" :: l) sv = at_path l (at_ ["spec"] sv)).
  { intros l. cbn [at_path]. destruct (mget sv "spec") as [v|]; [done|]. by destruct l. }
  split_and!.
  - rewrite E in H1. split; [by exists svc|]. apply Forall_cons in H3 as [T1 H3]. apply Forall_cons in H3 as [T2 H3]. apply Forall_cons in H3 as [T3 H3]. apply Forall_cons in H3 as [T4 _].
    rewrite E in T1, T2, T3, T4. repeat (apply List.Forall_cons; [done|]). apply List.Forall_nil.
  - rewrite E in H1. destruct (at_ ["spec"] sv); done.
  - by exists svc.
Qed.
Definition ep_g : jobj -> list jobj :=
  fun d => flat_map (fun d => flat_map (fun d => flat_map (fun d => flat_map (fun d => flat_map (fun d => flat_map (fun x => [x]) (ep_g6 d)) (ep_g5 d)) (ep_g4 d)) (ep_g3 d)) (ep_g2 d)) (ep_g1 d).
Lemma ep_chain : chain ep_q0 ep_rest ep_g yes.
Proof.
  unfold ep_g. apply (chain_cons _ ep_q1); [done| |].
  { intros d [_ (sv & es & -> & L & V & S)]. destruct (view_spec sv V) as (V1 & V2 & _). split.
    - eexists. split; [by apply ep_project_gives|]. reflexivity.
    - apply List.Forall_cons; [|apply List.Forall_nil]. eexists _, _, _, _. split; [reflexivity|]. destruct L as (ns & n & L1 & L2 & L3 & L4). destruct S as (_ & S1 & S2). split_and!; [|exact S1|exact S2|exact V1].
      change (text (ns_at sv)). by rewrite (str_at_is _ _ _ L1). }
  apply (chain_cons _ ep_q2); [done| |].
  { intros d [_ (ns & n & eps & spec & -> & T & E1 & E2 & S)]. split.
    - apply (unwind_does HP HF ["endpoints"] (doc1 ns n eps spec) n (fun i e => doc1 ns (port_name n i) e spec)); [done|words|done|done|].
      intros i v _. exists (doc1 ns n v spec). split_and!; reflexivity.
    - apply List.Forall_forall. intros x Hx. apply in_imap in Hx as (i & e & He & ->). eexists _, _, _, _. split; [reflexivity|]. split_and!; [exact T| |exact S].
      rewrite List.Forall_forall in E2. apply E2. apply elem_of_list_In. by apply (elem_of_list_lookup_2 _ i). }
  apply (chain_cons _ ep_q2); [done| |].
  { intros d [_ Q]. pose proof Q as (ns & n & e & spec & -> & T & E & S). split.
    - eexists. split; [by apply ep_ready_gives|]. reflexivity.
    - unfold ep_g3. destruct (is_true _); [|apply List.Forall_nil]. apply List.Forall_cons; [exact Q|apply List.Forall_nil]. }
  apply (chain_cons _ ep_q4); [done| |].
  { intros d [_ (ns & n & e & spec & -> & T & E & S)]. destruct e as [| | | | | |e]; try done. destruct E as (_ & E1 & E2). split.
    - apply (unwind_does HP HF ["endpoints"; "addresses"] (doc1 ns n (JMap e) spec) n (fun i a => doc1 ns (port_name n i) (JMap (mset e "addresses" a)) spec)); [done|words|exact E1|done|].
      intros i v _. exists (doc1 ns n (JMap (mset e "addresses" v)) spec). split_and!; reflexivity.
    - apply List.Forall_forall. intros x Hx. apply in_imap in Hx as (i & a & Ha & ->). rewrite List.Forall_forall in E2. specialize (E2 a ltac:(apply elem_of_list_In; by apply (elem_of_list_lookup_2 _ i))).
      destruct a as [| | | |a| |]; try done. eexists _, _, _, a, _. split; [reflexivity|]. split_and!; [exact T| |exact E2|exact S].
      change (match mget (mset e "addresses" (JStr a)) "addresses" with Some v => at_path [] v | None => JNull end = JStr a). by rewrite mget_set_eq. }
  apply (chain_cons _ ep_q5); [done| |].
  { intros d [_ (ns & n & e & a & spec & -> & T & E1 & E2 & S)]. assert (X : ep_g5 (doc1 ns n e spec) = [doc2 ns (spec6 (JStr a) spec)]) by (rewrite <-E1; reflexivity). rewrite X. split.
    - eexists. split; [by eapply ep_flat_gives|]. done.
    - apply List.Forall_cons; [|apply List.Forall_nil]. destruct S as ((svc & S1 & S2) & _). eexists _, _, svc. split; [reflexivity|]. split; [exact S1|exact S2]. }
  apply (chain_cons _ yes); [done| |by apply chain_nil].
  intros d [HC (ns & spec & svc & -> & S1 & S2)]. split; [|by apply List.Forall_forall]. eexists. split; [by apply ep_final_gives|]. unfold ep_g6. rewrite (str_at_is ["spec"; "serviceName"] (doc2 ns spec) svc S1). reflexivity.
Qed.
Definition ep_doc (x : json * json * json) : jobj := doc3 (str_of x.1.1) (str_of x.1.2 +:+ "-" +:+ hash_of x.2) x.2.
(** What a pair of a view and a slice becomes. *)
Lemma ep_total sv es : (exists ns n, located sv ns n) -> view_ok sv -> slice_ok es ->
  ep_g (comb sv es) = map ep_doc (map (fun a => (at_ ["metadata"; "namespace"] sv, at_ ["spec"; "serviceName"] sv, endpoint_spec sv a)) (ready_addresses es)).
Proof.
  intros (ns & n & L1 & L2 & _) V (_ & S1 & S2). destruct (view_spec sv V) as (_ & _ & svc & Hs). unfold ep_g.
  assert (E1 : ep_g1 (comb sv es) = [doc1 ns n (at_ ["endpoints"] es) (at_ ["spec"] sv)]).
  { unfold ep_g1. change (str_at ["ServiceView"; "metadata"; "namespace"] (comb sv es)) with (ns_at sv). change (str_at ["ServiceView"; "metadata"; "name"] (comb sv es)) with (name_at sv).
    rewrite (str_at_is _ _ _ L1), (str_at_is _ _ _ L2). reflexivity. }
  rewrite E1. clear E1. cbn [flat_map]. rewrite app_nil_r. unfold ready_addresses. rewrite !map_flat_map. unfold ep_g2 at 1.
  change (at_ ["endpoints"] (doc1 ns n (at_ ["endpoints"] es) (at_ ["spec"] sv))) with (at_ ["endpoints"] es).
  apply flat_map_imap. intros i e He. rewrite List.Forall_forall in S2. specialize (S2 e He). destruct e as [| | | | | |e]; try done. destruct S2 as (_ & A1 & A2).
  change (ns_at (doc1 ns n (at_ ["endpoints"] es) (at_ ["spec"] sv))) with ns. change (name_at (doc1 ns n (at_ ["endpoints"] es) (at_ ["spec"] sv))) with n.
  change (at_ ["spec"] (doc1 ns n (at_ ["endpoints"] es) (at_ ["spec"] sv))) with (at_ ["spec"] sv).
  unfold ep_g3 at 1. change (at_ ["endpoints"; "conditions"; "ready"] (doc1 ns (port_name n i) (JMap e) (at_ ["spec"] sv))) with (at_path ["conditions"; "ready"] (JMap e)).
  destruct (is_true _); [|done]. cbn [flat_map]. rewrite app_nil_r. unfold ep_g4 at 1.
  change (at_ ["endpoints"; "addresses"] (doc1 ns (port_name n i) (JMap e) (at_ ["spec"] sv))) with (at_path ["addresses"] (JMap e)).
  rewrite map_map, (map_one (fun x => ep_doc _)). apply flat_map_imap. intros j a Ha.
  assert (E5 : forall k, ep_g5 (doc1 ns k (JMap (mset e "addresses" a)) (at_ ["spec"] sv)) = [doc2 ns (endpoint_spec sv a)]).
  { intros k. unfold ep_g5. assert (at_ ["endpoints"; "addresses"] (doc1 ns k (JMap (mset e "addresses" a)) (at_ ["spec"] sv)) = a) as ->.
    - change (match mget (mset e "addresses" a) "addresses" with Some v => at_path [] v | None => JNull end = a). by rewrite mget_set_eq.
    - change (ns_at (doc1 ns k (JMap (mset e "addresses" a)) (at_ ["spec"] sv))) with ns. change (at_ ["spec"] (doc1 ns k (JMap (mset e "addresses" a)) (at_ ["spec"] sv))) with (at_ ["spec"] sv).
      unfold spec6, endpoint_spec. assert (X : forall l, at_ ("spec" :: l) sv = at_path l (at_ ["spec"] sv)). { intros l. cbn [at_path]. destruct (mget sv "spec") as [v|]; [done|]. by destruct l. }
      by rewrite <-!X. }
  change (flat_map (fun d => flat_map (fun x => [x]) (ep_g6 d)) (ep_g5 (doc1 ns (port_name (port_name n i) j) (JMap (mset e "addresses" a)) (at_ ["spec"] sv))) = [ep_doc (at_ ["metadata"; "namespace"] sv, at_ ["spec"; "serviceName"] sv, endpoint_spec sv a)]).
  rewrite E5. cbn [flat_map]. rewrite flat_map_one, app_nil_r. unfold ep_g6, ep_doc. cbn [fst snd]. rewrite L1, Hs. cbn [str_of].
  assert (str_at ["spec"; "serviceName"] (doc2 ns (endpoint_spec sv a)) = svc) as ->; [|reflexivity]. apply str_at_is. exact Hs.
Qed.
Notation ep_history := (Forall (fun d : delta => endpoint_object (stripped (d_obj d)))).
Lemma endpoint_in {ds c k d} : history_ok clean ep_sources ∅ ds -> ep_history ds -> In d (of_kind (String c k) (after ds)) -> endpoint_object d /\ get_kind d = String c k /\ clean d = true.
Proof. assert (String c k <> "") as Hk by done. intros HH HC Hd. destruct (of_kind_in _ _ _ _ Hk HH Hd) as (? & ? & x & Hx). split; [|done]. by eapply (after_all endpoint_object). Qed.
Lemma view_in {ds d} : history_ok clean ep_sources ∅ ds -> ep_history ds -> In d (of_kind "ServiceView" (after ds)) -> (exists ns n, located d ns n) /\ view_ok d /\ clean d = true.
Proof. intros HH HC Hd. destruct (endpoint_in HH HC Hd) as ((L & V & _) & K & C). split_and!; [done|by apply V|done]. Qed.
Lemma slice_in {ds d} : history_ok clean ep_sources ∅ ds -> ep_history ds -> In d (of_kind "EndpointSlice" (after ds)) -> (exists ns n, located d ns n) /\ slice_ok d /\ clean d = true.
Proof. intros HH HC Hd. destruct (endpoint_in HH HC Hd) as ((L & _ & V) & K & C). split_and!; [done|by apply V|done]. Qed.
Lemma ep_clean : Forall stage_clean ep_stages.
Proof. repeat (apply List.Forall_cons; [apply (C51_tidy _ _ HE); vm_compute; reflexivity|]). apply List.Forall_nil. Qed.
Lemma comb_clean sv es : clean sv = true -> clean es = true -> clean (comb sv es) = true.
Proof.
  intros H1 H2. apply combination_clean; [| |done].
  - repeat (apply List.Forall_cons; [vm_compute; reflexivity|]). apply List.Forall_nil.
  - repeat (apply List.Forall_cons; [done|]). apply List.Forall_nil.
Qed.
Lemma ep_yields sortv ds R : history_ok clean ep_sources ∅ ds -> ep_history ds -> yields sortv ep_sources ep_stages (after ds) R -> Permutation (map ep_doc (endpoints (after ds))) R.
Proof.
  intros HH HC (l & [_ ->] & HM).
  assert (HB : forall sv es, In sv (of_kind "ServiceView" (after ds)) -> In es (of_kind "EndpointSlice" (after ds)) -> holds ep_join (comb sv es) = belongs sv es).
  { intros sv es H1 H2. destruct (view_in HH HC H1) as (L1 & V & _), (slice_in HH HC H2) as (L2 & S & _). unfold holds. rewrite ep_join_gives by done. by destruct (belongs sv es). }
  assert (CL : Forall stage_clean ep_rest) by (pose proof ep_clean as CL; by apply Forall_cons in CL as [_ CL]).
  apply (chain_means _ _ _ _ _ ep_chain CL) in HM.
  - rewrite <-HM. clear HM. rewrite flat_map_filter, flat_map_of_map. cbn [map]. rewrite flat_map_picks. unfold endpoints. rewrite map_flat_map.
    rewrite (flat_map_in _ (fun sv => flat_map (fun es => if holds ep_join (comb sv es) then ep_g (comb sv es) else []) (of_kind (gvk_kind endpoint_slice) (after ds)))); [reflexivity|].
    intros sv H1. rewrite map_flat_map. apply flat_map_in. intros es H2. rewrite (HB sv es H1 H2). destruct (belongs sv es); [|done].
    destruct (view_in HH HC H1) as (L1 & V & _), (slice_in HH HC H2) as (L2 & S & _). symmetry. by apply ep_total.
  - apply List.Forall_forall. intros d Hd. apply filter_In in Hd as [Hd _]. apply in_map_iff in Hd as (x & <- & Hx). apply picks_in in Hx.
    apply Forall2_cons_inv_r in Hx as (sv & y & H1 & Hx & ->). apply Forall2_cons_inv_r in Hx as (es & z & H2 & Hx & ->). apply Forall2_nil_inv_r in Hx as ->.
    destruct (view_in HH HC H1) as (L1 & V & C1), (slice_in HH HC H2) as (L2 & S & C2). split; [by apply comb_clean|]. by exists sv, es.
Qed.
(** The endpoints have proper names. *)
Lemma endpoint_named ds x : history_ok clean ep_sources ∅ ds -> ep_history ds -> In x (endpoints (after ds)) ->
  exists ns svc spec, x = (JStr ns, JStr svc, spec) /\ text ns /\ text svc /\ has_slash ns = false /\ has_slash svc = false /\ base36 (hash_of spec) = true.
Proof.
  intros HH HC Hx. unfold endpoints in Hx. apply in_flat_map in Hx as (sv & H1 & Hx). apply in_flat_map in Hx as (es & H2 & Hx). destruct (belongs sv es); [|done]. apply in_map_iff in Hx as (a & <- & Ha).
  destruct (view_in HH HC H1) as ((ns & n & L) & V & C1), (slice_in HH HC H2) as (L2 & S & C2). pose proof V as ((svc & V1 & V2 & V3) & _). pose proof L as (A1 & _ & A3 & _). rewrite A1, V1.
  assert (HK : one_per_name (of_kind "ServiceView" (after ds))).
  { apply (kind_names ep_sources); [done| |].
    - apply NoDup_ListNoDup. repeat (constructor; [vm_compute; intuition discriminate|]). constructor.
    - eapply Forall_impl; [exact HC|]. clear. intros d ((ns & n & H) & _). eexists. by apply (located_id _ ns n). }
  destruct HK as [_ HK]. destruct (HK sv H1) as (i & Hi & [P1 _]). rewrite (located_id _ _ _ L) in Hi. injection Hi as <-.
  eexists ns, svc, _. split_and!; [reflexivity|done..|]. apply hash_gives. unfold endpoint_spec.
  assert (Ca : jclean a = true).
  { unfold ready_addresses in Ha. apply in_flat_map in Ha as (e & He & Ha). destruct (is_true _); [|done].
    assert (CI : forall v x, jclean v = true -> In x (items v) -> jclean x = true).
    { intros v x Hv Hx. destruct v as [| | | | |l|]; try done. apply jclean_list in Hv. by eapply List.Forall_forall in Hv. }
    apply (CI _ _ (at_clean ["addresses"] e (CI _ _ (at_clean ["endpoints"] (JMap es) C2) He)) Ha). }
  assert (HA : forall l, jclean (at_ l sv) = true) by (intros l; by apply at_clean).
  pose proof (HA ["spec"; "ports"; "port"]) as X1. pose proof (HA ["spec"; "ports"; "protocol"]) as X2. pose proof (HA ["spec"; "serviceName"]) as X3. pose proof (HA ["spec"; "ports"; "targetPort"]) as X4. pose proof (HA ["spec"; "type"]) as X5.
  revert Ca X1 X2 X3 X4 X5. generalize (at_ ["spec"; "ports"; "port"] sv) (at_ ["spec"; "ports"; "protocol"] sv) (at_ ["spec"; "serviceName"] sv) (at_ ["spec"; "ports"; "targetPort"] sv) (at_ ["spec"; "type"] sv).
  intros j1 j2 j3 j4 j5 E0 E1 E2 E3 E4 E5. cbn [jclean]. rewrite E0, E1, E2, E3, E4, E5. reflexivity.
Qed.
Lemma ep_doc_id ns svc spec : text svc -> doc_id (ep_doc (JStr ns, JStr svc, spec)) = Some (endpoint_id (JStr ns, JStr svc, spec)).
Proof. intros H. destruct svc as [|c svc]; [done|]. reflexivity. Qed.
Lemma ep_names ds : history_ok clean ep_sources ∅ ds -> ep_history ds -> apart (after ds) -> one_per_name (map ep_doc (endpoints (after ds))).
Proof.
  intros HH HC HA. split.
  - rewrite map_map. rewrite (map_ext_in _ (fun x => Some (endpoint_id x))).
    + rewrite <-(map_map endpoint_id Some). apply (NoDup_fmap_2 Some). exact HA.
    + intros x Hx. destruct (endpoint_named ds x HH HC Hx) as (ns & svc & spec & -> & _ & T & _). by apply ep_doc_id.
  - intros d Hd. apply in_map_iff in Hd as (x & <- & Hx). destruct (endpoint_named ds x HH HC Hx) as (ns & svc & spec & -> & _ & T & P1 & P2 & P3). eexists. split; [by apply ep_doc_id|].
    split; [exact P1|]. cbn [endpoint_id fst snd str_of]. apply has_slash_app; [done|]. apply (has_slash_app "-"); [done|]. by apply base36_slash.
Qed.
Lemma ep_doc_out ns svc spec : text ns -> text svc -> encapsulate endpoint_view (ep_doc (JStr ns, JStr svc, spec)) ns (svc +:+ "-" +:+ hash_of spec) = endpoint_out ns (svc +:+ "-" +:+ hash_of spec) spec.
Proof. intros H1 H2. destruct svc as [|c svc]; [done|]. destruct ns as [|b ns]; [done|]. reflexivity. Qed.
Lemma endpoints_hold sortv p pp o ds : (forall l, Permutation (sortv l) l) -> fmt_ok -> fmt_inj ->
  unmarshal_pipeline slices_json = Val p -> declare clean endpoint_view ep_sources p = Some pp -> order_ok o -> history_ok clean ep_sources ∅ ds -> ep_history ds ->
  (forall pre post, ds = (pre ++ post)%list -> apart (after pre)) ->
  exists p' outs, pipe_run clean sortv o 0 pp ds = (p', map Some outs)
    /\ forall ns n m, apply_ops no_objects (concat outs) (ns, n) = Some m <->
         exists svc spec, In (JStr ns, JStr svc, spec) (endpoints (after ds)) /\ n = svc +:+ "-" +:+ hash_of spec /\ m = endpoint_out ns n spec.
Proof.
  intros HS F1 F2 HU HD Ho HH HC HA. rewrite slices_stages in HU. injection HU as <-.
  destruct (C51_runs_partial FF EE sortv endpoint_view ep_sources ep_stages pp o ds (fun k d => endpoint_object d /\ get_kind d = k) yes F1 F2 HS) as (p' & outs & R & HR & HY & HT); try done.
  - apply NoDup_ListNoDup. repeat (constructor; [vm_compute; intuition discriminate|]). constructor.
  - repeat (apply List.Forall_cons; [vm_compute; reflexivity|]). apply List.Forall_nil.
  - apply ep_clean.
  - eapply each_on; [|exact HH|exact HC]. repeat (apply List.Forall_cons; [done|]). apply List.Forall_nil.
  - exists ep_q0. split.
    + intros x F. apply Forall2_cons_inv_l in F as (sv & y & (_ & X1 & K1) & F & ->). apply Forall2_cons_inv_l in F as (es & z & (_ & X2 & K2) & F & ->). apply Forall2_nil_inv_l in F as ->.
      destruct X1 as (L1 & V1 & _), X2 as (L2 & _ & V2). specialize (V1 K1). specialize (V2 K2). eexists. split; [by apply ep_join_gives|]. intros _. by exists sv, es.
    + pose proof ep_clean as CL. apply Forall_cons in CL as [_ CL]. apply (chain_on _ _ _ _ ep_chain CL).
  - intros pre post R -> HY. apply history_app in HH as [HH _]. apply Forall_app in HC as [HC _]. eapply one_per_name_perm; [by apply (ep_yields sortv)|]. apply ep_names; [done|done|]. by eapply HA.
  - exists p', outs. split; [done|]. intros ns n m. rewrite HT. apply ep_yields in HY; [|done|done]. split.
    + intros (d & Hd & Hi & ->). apply (Permutation_in _ (Permutation_sym HY)) in Hd. apply in_map_iff in Hd as (x & <- & Hx).
      destruct (endpoint_named ds x HH HC Hx) as (ns' & svc & spec & -> & T0 & T & _). rewrite ep_doc_id in Hi by done. injection Hi as -> <-. exists svc, spec. split_and!; [done|done|]. by apply ep_doc_out.
    + intros (svc & spec & Hx & -> & ->). destruct (endpoint_named ds _ HH HC Hx) as (ns' & svc' & spec' & E & T0 & T & _). injection E as <- <- <-. exists (ep_doc (JStr ns, JStr svc, spec)). split_and!.
      * apply (Permutation_in _ HY). by apply in_map.
      * by apply ep_doc_id.
      * symmetry. by apply ep_doc_out.
Qed.
End endpoints.
