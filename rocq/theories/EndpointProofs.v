(** The first controller of the EndpointSlice example. *)
From Verif Require Import JsonModel ObjModel ZSetModel OpsModel ExecModel PipelineModel ValueModel PipeJsonModel StageModel ExampleModel EndpointModel.
From Verif Require Import ExprSpec ZSetSpec OpsSpec ExecSpec JsonSpec CleanSpec PipelineSpec StageSpec StageRunSpec ExampleSpec EndpointSpec.
From Verif Require Import JsonProofs ObjProofs CleanProofs ExprProofs2 ExprProofs3 ConvertProofs PipeProofs PipeProofs2 PipeProofs3 StageNames StageProofs StageClean StageRunProofs DeclProofs PropsExpr PropsStage PropsStageRun ExampleProofs ExampleProofs2 ExampleProofs3 ExampleProofs4 ExampleProofs5 StageChain.
#[local] Open Scope string_scope.

Lemma flat_map_one {A} (l : list A) : flat_map (fun x => [x]) l = l.
Proof. induction l as [|x l IH]; [done|]. cbn. by rewrite IH. Qed.
Lemma nodup_flat_map {A B C} (f : B -> C) (g : A -> list B) l : NoDup l -> (forall x, In x l -> NoDup (map f (g x))) ->
  (forall x y z z', In x l -> In y l -> In z (g x) -> In z' (g y) -> f z = f z' -> x = y) -> NoDup (map f (flat_map g l)).
Proof.
  induction 1 as [|x l Hx Hl IH]; intros H1 H2; [apply NoDup_nil; done|]. cbn [flat_map]. rewrite map_app. apply NoDup_app. split_and!.
  - apply H1. by left.
  - intros c Hc Hc'. apply elem_of_list_In, in_map_iff in Hc as (z & Ez & Hz). apply elem_of_list_In, in_map_iff in Hc' as (z' & Ez' & Hz'). apply in_flat_map in Hz' as (y & Hy & Hz').
    assert (x = y) as <- by (eapply (H2 x y z z'); [by left|by right|done|done|congruence]). apply Hx. by apply elem_of_list_In.
  - apply IH; [intros; apply H1; by right|]. intros y y' z z' Hy Hy'. apply H2; by right.
Qed.
Lemma in_imap {A B} (f : nat -> A -> B) l b : In b (imap f l) <-> exists i a, l !! i = Some a /\ b = f i a.
Proof.
  rewrite <-elem_of_list_In, elem_of_list_lookup. split.
  - intros [i H]. rewrite list_lookup_imap in H. destruct (l !! i) as [a|] eqn:E; [|done]. injection H as <-. by exists i, a.
  - intros (i & a & H & ->). exists i. by rewrite list_lookup_imap, H.
Qed.
Lemma value_inert v : value_ok v -> inert v.
Proof. destruct v; try done. apply text_inert. Qed.
Lemma value_now v : value_ok v -> is_str "@now" v = false.
Proof. destruct v; try done. apply text_now. Qed.
Lemma list_value v : list_or_null v -> value_ok v.
Proof. by destruct v. Qed.

Section stages.
Context {FF : FloatFmt} {EE : ExprEnv}.
Hypothesis HP : reads_fields.
Hypothesis HF : sets_fields.
Lemma field_gives l d sub v : l <> [] -> Forall word l -> at_path l d = v -> value_ok v -> gives (strE ("$" +:+ dotted l)) (Ctx d sub) v.
Proof. intros H1 H2 <- H3. apply (path_gives HP); [done|done|]. by apply value_now. Qed.
(** @exists does not mind what the value is. *)
Lemma exists_gives q d v : match q with String c (String c2 (String _ _)) => c = dollar /\ c2 <> dollar | _ => False end ->
  get_raw q (JMap d) = Val v -> gives (op1 "@exists" (strE q)) (Ctx (JMap d) JNull) (JBool (negb (is_null v))).
Proof.
  intros Hq HR. unfold gives.
  change (eval (op1 "@exists" (strE q)) (Ctx (JMap d) JNull)) with (rbind (rbind (get_path (Ctx (JMap d) JNull) q) (fun v => Val (if is_str "@now" v then JStr now else v))) (fun v => Val (JBool (negb (is_null v))))).
  assert (get_path (Ctx (JMap d) JNull) q = Val v) as ->; [|cbn [rbind]; by destruct (is_str "@now" v) eqn:E; [destruct v|]].
  destruct q as [|c [|c2 [|c3 q]]]; try done. destruct Hq as [-> Hc]. unfold get_path. rewrite decide_True by done.
  rewrite (decide_False (P := String dollar (String c2 (String c3 q)) = "$.")) by done.
  rewrite (decide_False (P := String dollar (String c2 (String c3 q)) = "$$.")) by (intros [= -> _]; done). by rewrite (bool_decide_eq_false_2 (c2 = dollar)).
Qed.
Lemma unwind_does (l : list string) (d : jobj) (n : string) (f : nat -> json -> jobj) : l <> [] -> Forall word l -> list_or_null (at_ l d) ->
  at_ ["metadata"; "name"] d = JStr n ->
  (forall i v, items (at_ l d) !! i = Some v -> exists d1, put_at l v d = Some d1 /\ at_ ["metadata"; "name"] d1 = JStr n /\ put_at ["metadata"; "name"] (JStr (port_name n i)) d1 = Some (f i v)) ->
  stage_does (Stage KUnwind (strE ("$" +:+ dotted l))) d (imap f (items (at_ l d))).
Proof.
  intros Hl Hw HL Hn HI. assert (HN : Forall word ["metadata"; "name"]) by words. unfold stage_does. cbn [st_kind st_expr].
  split.
  - exists (JStr n). change name_path with ("$" +:+ dotted ["metadata"; "name"]). by rewrite HP, Hn.
  - exists ("$" +:+ dotted l), (items (at_ l d)). split; [done|]. split_and!.
    + assert (eval_doc (strE ("$" +:+ dotted l)) d = Some (at_ l d)) as ->. { unfold eval_doc. by rewrite (field_gives l (JMap d) JNull _ Hl Hw eq_refl (list_value _ HL)). }
      destruct (at_ l d); try done; [by right|by left].
    + by rewrite imap_length.
    + intros i v d' Hv Hd'. rewrite list_lookup_imap, Hv in Hd'. injection Hd' as <-. destruct (HI i v Hv) as (d1 & P1 & P2 & P3). exists d1, (JStr n). split_and!.
      * by apply HF.
      * change name_path with ("$" +:+ dotted ["metadata"; "name"]). by rewrite HP, P2.
      * change name_path with ("$" +:+ dotted ["metadata"; "name"]). by apply HF.
Qed.
End stages.

Definition sv_select : expr := op1 "@exists" (strE enabled_path).
Definition sv_project : expr :=
  dictE [("metadata", dictE [("name", strE "$.metadata.name"); ("namespace", strE "$.metadata.namespace")]);
         ("spec", dictE [("ports", strE "$.spec.ports"); ("serviceName", strE "$.metadata.name"); ("type", strE "$.spec.type")])].
Notation sv_stages := [Stage KSelect sv_select; Stage KProject sv_project; Stage KUnwind (strE "$.spec.ports")].
Lemma ports_stages : unmarshal_pipeline ports_json = Val sv_stages.
Proof. reflexivity. Qed.
Definition annotated (d : jobj) : bool := negb (is_null (annotation_of d)).
Definition sv_doc (ns n svc : string) (ty ports : json) : jobj :=
  [("metadata", JMap [("name", JStr n); ("namespace", JStr ns)]); ("spec", JMap [("ports", ports); ("serviceName", JStr svc); ("type", ty)])].
Notation ns_at d := (str_at ["metadata"; "namespace"] d).
Notation name_at d := (str_at ["metadata"; "name"] d).
Notation sv_g1 := (fun d : jobj => if annotated d then [d] else []).
Notation sv_g2 := (fun d : jobj => [sv_doc (ns_at d) (name_at d) (name_at d) (at_ ["spec"; "type"] d) (at_ ["spec"; "ports"] d)]).
Notation sv_g3 := (fun d : jobj => imap (fun i v => sv_doc (ns_at d) (port_name (name_at d) i) (name_at d) (at_ ["spec"; "type"] d) v) (items (at_ ["spec"; "ports"] d))).

Section services.
Context {FF : FloatFmt} {EE : ExprEnv}.
Hypothesis HP : reads_fields.
Hypothesis HF : sets_fields.
Hypothesis HQ : reads_quoted.
Hypothesis HO : is_order iterate.
Hypothesis HE : env_clean.
Notation yes := (fun _ : jobj => True).

Definition sv_shape (d : jobj) : Prop := exists ns n ty ports, d = sv_doc ns n n ty ports /\ list_or_null ports.
Lemma sv_project_gives d : service_object d -> projected sv_project d (sv_doc (ns_at d) (name_at d) (name_at d) (at_ ["spec"; "type"] d) (at_ ["spec"; "ports"] d)).
Proof.
  intros ((ns & n & A1 & A2 & A3 & A4) & B1 & B2). left. rewrite (str_at_is _ _ _ A1), (str_at_is _ _ _ A2). unfold eval_doc, sv_doc.
  assert (gives sv_project (Ctx (JMap d) JNull) (JMap (sv_doc ns n n (at_ ["spec"; "type"] d) (at_ ["spec"; "ports"] d)))) as ->; [|done]. unfold sv_doc, sv_project.
  apply (two_gives HO "metadata" "spec" _ _ _ (JMap [("name", JStr n); ("namespace", JStr ns)]) (JMap [("ports", at_ ["spec"; "ports"] d); ("serviceName", JStr n); ("type", at_ ["spec"; "type"] d)])); [reflexivity| |exact I| |exact I|reflexivity].
  - apply (two_gives HO "name" "namespace" _ _ _ (JStr n) (JStr ns)); [reflexivity| | | | |reflexivity].
    + by_path HP ["metadata"; "name"]; [|exact A2]. rewrite A2. by apply text_now.
    + by apply text_inert.
    + by_path HP ["metadata"; "namespace"]; [|exact A1]. rewrite A1. by apply text_now.
    + by apply text_inert.
  - apply (three_gives HO "ports" "serviceName" "type" _ _ _ _ (at_ ["spec"; "ports"] d) (JStr n) (at_ ["spec"; "type"] d)); [reflexivity| | | | | | |reflexivity].
    + by_path HP ["spec"; "ports"]; [|reflexivity]. by apply value_now, list_value.
    + by apply value_inert, list_value.
    + by_path HP ["metadata"; "name"]; [|exact A2]. rewrite A2. by apply text_now.
    + by apply text_inert.
    + by_path HP ["spec"; "type"]; [|reflexivity]. by apply value_now.
    + by apply value_inert.
Qed.
Lemma sv_chain : chain service_object sv_stages (fun d => flat_map (fun d => flat_map (fun d => flat_map (fun x => [x]) (sv_g3 d)) (sv_g2 d)) (sv_g1 d)) yes.
Proof.
  apply (chain_cons _ service_object _ _ _ sv_g1 (fun d => flat_map (fun d => flat_map (fun x => [x]) (sv_g3 d)) (sv_g2 d))); [done| |].
  { intros d [_ Hd]. split.
    - exists (annotated d). split; [|done]. unfold eval_doc. destruct HQ as (Q1 & _). unfold sv_select. by rewrite (exists_gives enabled_path d (annotation_of d)).
    - destruct (annotated d); [|apply List.Forall_nil]. apply List.Forall_cons; [done|apply List.Forall_nil]. }
  apply (chain_cons _ sv_shape _ _ _ sv_g2 (fun d => flat_map (fun x => [x]) (sv_g3 d))); [done| |].
  { intros d [_ Hd]. split; [eexists; split; [by apply sv_project_gives|done]|]. apply List.Forall_cons; [|apply List.Forall_nil].
    eexists _, _, _, _. split; [done|]. by destruct Hd as (_ & ? & _). }
  apply (chain_cons _ yes _ _ _ sv_g3 (fun x => [x])); [done| |by apply chain_nil].
  intros d [_ (ns & n & ty & ports & -> & HL)]. split; [|by apply List.Forall_forall].
  apply (unwind_does HP HF ["spec"; "ports"] (sv_doc ns n n ty ports) n (fun i v => sv_doc ns (port_name n i) n ty v)); [done|words|done|done|].
  intros i v _. exists (sv_doc ns n n ty v). split_and!; reflexivity.
Qed.
Notation sv_out := (fun d => if annotated d then imap (fun i v => sv_doc (ns_at d) (port_name (name_at d) i) (name_at d) (at_ ["spec"; "type"] d) v) (ports_of d) else []).
Lemma sv_clean : Forall stage_clean sv_stages.
Proof. repeat (apply List.Forall_cons; [apply (C51_tidy _ _ HE); vm_compute; reflexivity|]). apply List.Forall_nil. Qed.
Notation services_history := (Forall (fun d : delta => service_object (stripped (d_obj d)))).
Lemma service_in {ds d} : history_ok clean [service] ∅ ds -> services_history ds -> In d (of_kind "Service" (after ds)) -> service_object d /\ clean d = true.
Proof. intros HH HC Hd. destruct (of_kind_in [service] _ "Service" _ ltac:(done) HH Hd) as (? & ? & x & Hx). split; [|done]. by eapply (after_all service_object). Qed.
Lemma sv_yields sortv ds R : history_ok clean [service] ∅ ds -> services_history ds -> yields sortv [service] sv_stages (after ds) R ->
  Permutation (flat_map sv_out (of_kind "Service" (after ds))) R.
Proof.
  intros HH HC (s & [= <-] & HM). apply (chain_means _ _ _ _ _ sv_chain sv_clean) in HM.
  - rewrite <-HM. apply eq_reflexivity || (erewrite flat_map_ext; [reflexivity|]). intros d. cbn [flat_map]. unfold ports_of. destruct (annotated d); [|done]. cbn [flat_map]. rewrite !app_nil_r, flat_map_one. reflexivity.
  - apply List.Forall_forall. intros d Hd. destruct (service_in HH HC Hd). done.
Qed.
Lemma services_named ds : services_history ds -> named_history ds.
Proof. intros H. eapply Forall_impl; [exact H|]. clear H. intros d ((ns & n & H) & _). eexists. by apply (located_id _ ns n). Qed.
Lemma port_text n i : text n -> text (port_name n i).
Proof. by destruct n. Qed.
Lemma sv_doc_id ns n svc ty v : text n -> doc_id (sv_doc ns n svc ty v) = Some (ns, n).
Proof. intros H. destruct n as [|c n]; [done|]. reflexivity. Qed.
Lemma sv_doc_out ns n svc ty v : text ns -> text n -> encapsulate service_view (sv_doc ns n svc ty v) ns n = port_view ns n svc ty v.
Proof. intros H1 H2. destruct n as [|c n]; [done|]. destruct ns as [|b ns]; [done|]. reflexivity. Qed.
(** An object of the result comes from a port of an annotated Service. *)
Lemma sv_out_in ds x : history_ok clean [service] ∅ ds -> services_history ds -> In x (flat_map sv_out (of_kind "Service" (after ds))) <->
  exists d ns svc i p, In d (of_kind "Service" (after ds)) /\ located d ns svc /\ annotated d = true /\ ports_of d !! i = Some p /\ x = sv_doc ns (port_name svc i) svc (at_ ["spec"; "type"] d) p.
Proof.
  intros HH HC. rewrite in_flat_map. split.
  - intros (d & Hd & Hx). destruct (annotated d) eqn:E; [|done]. apply in_imap in Hx as (i & p & Hp & ->). destruct (service_in HH HC Hd) as [((ns & svc & L) & _) _].
    exists d, ns, svc, i, p. destruct L as (L1 & L2 & L3). rewrite (str_at_is _ _ _ L1), (str_at_is _ _ _ L2). done.
  - intros (d & ns & svc & i & p & Hd & (L1 & L2 & _) & E & Hp & ->). exists d. split; [done|]. rewrite E. apply in_imap. exists i, p. by rewrite (str_at_is _ _ _ L1), (str_at_is _ _ _ L2).
Qed.
Lemma sv_names ds : history_ok clean [service] ∅ ds -> services_history ds -> one_per_name (flat_map sv_out (of_kind "Service" (after ds))).
Proof.
  intros HH HC. assert (HK : one_per_name (of_kind "Service" (after ds))) by (apply (kind_names [service]); [done|apply NoDup_singleton|by apply services_named]).
  split.
  - apply nodup_flat_map; [by apply names_nodup| |].
    + intros d Hd. destruct (annotated d); [|apply NoDup_nil; done]. destruct (service_in HH HC Hd) as [((ns & svc & L1 & L2 & _ & L4) & _) _]. rewrite (str_at_is _ _ _ L1), (str_at_is _ _ _ L2).
      apply NoDup_alt. intros i j x Hi Hj. rewrite list_lookup_fmap, list_lookup_imap in Hi, Hj. destruct (ports_of d !! i); [|done]. destruct (ports_of d !! j); [|done].
      cbn [fmap option_fmap option_map] in Hi, Hj. rewrite sv_doc_id in Hi, Hj by (by apply port_text). rewrite <-Hi in Hj. injection Hj as Hj. by apply indexed_inj in Hj as [_ ->].
    + intros d d' z z' Hd Hd' Hz Hz' E. assert (forall d z, In d (of_kind "Service" (after ds)) -> In z (sv_out d) -> exists ns svc i, located d ns svc /\ doc_id z = Some (ns, port_name svc i)) as G.
      { clear -HH HC. intros d z Hd Hz. destruct (annotated d); [|done]. apply in_imap in Hz as (i & p & _ & ->). destruct (service_in HH HC Hd) as [((ns & svc & L) & _) _]. exists ns, svc, i.
        split; [done|]. destruct L as (L1 & L2 & _ & L4). rewrite (str_at_is _ _ _ L1), (str_at_is _ _ _ L2). apply sv_doc_id. by apply port_text. }
      destruct (G d z Hd Hz) as (ns & svc & i & L & Ez), (G d' z' Hd' Hz') as (ns' & svc' & i' & L' & Ez'). rewrite Ez, Ez' in E. injection E as <- E. apply indexed_inj in E as [<- _].
      apply (names_inj _ _ _ HK Hd Hd'). by rewrite (located_id _ _ _ L), (located_id _ _ _ L').
  - intros x Hx. apply (sv_out_in ds x HH HC) in Hx as (d & ns & svc & i & p & Hd & L & _ & _ & ->). eexists. split; [apply sv_doc_id, port_text, L|].
    destruct HK as [_ HK]. destruct (HK d Hd) as (j & Hj & [P1 P2]). rewrite (located_id _ _ _ L) in Hj. injection Hj as <-. split; [done|]. by apply name_slash.
Qed.
Lemma services_hold sortv p pp o ds : (forall l, Permutation (sortv l) l) -> fmt_ok -> fmt_inj ->
  unmarshal_pipeline ports_json = Val p -> declare clean service_view [service] p = Some pp -> order_ok o -> history_ok clean [service] ∅ ds -> services_history ds ->
  exists p' outs, pipe_run clean sortv o 0 pp ds = (p', map Some outs)
    /\ forall ns n m, apply_ops no_objects (concat outs) (ns, n) = Some m <->
         exists d svc i port, In d (of_kind "Service" (after ds)) /\ located d ns svc /\ annotation_of d <> JNull /\ ports_of d !! i = Some port
           /\ n = port_name svc i /\ m = port_view ns n svc (at_ ["spec"; "type"] d) port.
Proof.
  intros HS F1 F2 HU HD Ho HH HC. rewrite ports_stages in HU. injection HU as <-.
  destruct (C51_runs_partial FF EE sortv service_view [service] sv_stages pp o ds (fun k d => service_object d /\ get_kind d = k) yes F1 F2 HS) as (p' & outs & R & HR & HY & HT); try done.
  - apply NoDup_singleton.
  - apply List.Forall_cons; [vm_compute; reflexivity|apply List.Forall_nil].
  - apply sv_clean.
  - eapply each_on; [|exact HH|exact HC]. apply List.Forall_cons; [done|apply List.Forall_nil].
  - exists service. split; [done|]. apply (chain_on _ _ _ _ (chain_weak _ _ _ _ _ sv_chain (fun d H => proj1 H)) sv_clean).
  - intros pre post R -> HY. apply history_app in HH as [HH _]. apply Forall_app in HC as [HC _]. eapply one_per_name_perm; [by apply (sv_yields sortv)|]. by apply sv_names.
  - exists p', outs. split; [done|]. intros ns n m. rewrite HT. apply sv_yields in HY; [|done|done]. split.
    + intros (x & Hx & Hi & ->). apply (Permutation_in _ (Permutation_sym HY)), (sv_out_in ds x HH HC) in Hx as (d & ns' & svc & i & port & Hd & L & A & Hp & ->).
      rewrite sv_doc_id in Hi by apply port_text, L. injection Hi as -> <-. exists d, svc, i, port. split_and!; try done.
      * intros E. unfold annotated in A. by rewrite E in A.
      * cbn [fst snd]. apply sv_doc_out; [apply L|apply port_text, L].
    + intros (d & svc & i & port & Hd & L & A & Hp & -> & ->). exists (sv_doc ns (port_name svc i) svc (at_ ["spec"; "type"] d) port). split_and!.
      * apply (Permutation_in _ HY), (sv_out_in ds _ HH HC). exists d, ns, svc, i, port. split_and!; try done. unfold annotated. by destruct (annotation_of d).
      * apply sv_doc_id, port_text, L.
      * symmetry. apply sv_doc_out; [apply L|apply port_text, L].
Qed.
End services.
