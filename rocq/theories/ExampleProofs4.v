(** The example that counts the ready pods of services: from pods to HealthViews. *)
From Verif Require Import JsonModel ObjModel ZSetModel OpsModel ExecModel PipelineModel ValueModel PipeJsonModel StageModel ExampleModel.
From Verif Require Import ExprSpec ZSetSpec OpsSpec ExecSpec JsonSpec CleanSpec PipelineSpec StageSpec ExampleSpec.
From Verif Require Import JsonProofs CleanProofs ExprProofs2 ExprProofs3 ConvertProofs PipeProofs PipeProofs2 PipeProofs3 StageNames StageProofs StageClean PropsExpr PropsStage ExampleProofs ExampleProofs2 ExampleProofs3.
#[local] Open Scope string_scope.

Definition pd_project : expr :=
  dictE [("metadata", dictE [("name", strE app_path); ("namespace", strE "$.metadata.namespace")]);
         ("pods", dictE [("podName", strE "$.metadata.name"); ("ready", strE ready_path)])].
Definition pd_key : expr := opl "@concat" [strE "$.metadata.name"; strE "--"; strE "$.metadata.namespace"].
Lemma pods_stages : unmarshal_pipeline pods_json = Val [Stage KProject pd_project; Stage KGather (listE [pd_key; strE "$.pods"])].
Proof. reflexivity. Qed.
Notation pd_stages := [Stage KProject pd_project; Stage KGather (listE [pd_key; strE "$.pods"])].

Definition app_str (d : jobj) : string := str_at ["metadata"; "labels"; "app"] d.
Definition ns_str (d : jobj) : string := str_at ["metadata"; "namespace"] d.
Definition pd_out (ns a : string) (v : json) : jobj := [("metadata", JMap [("name", JStr a); ("namespace", JStr ns)]); ("pods", v)].
Definition pd_pr (d : jobj) : jobj := pd_out (ns_str d) (app_str d) (pod_status d).
Definition pd_text (d : jobj) : string := app_str d +:+ "--" +:+ ns_str d.

Lemma at_clean `{FloatFmt} l : forall v, jclean v = true -> jclean (at_path l v) = true.
Proof.
  induction l as [|k l IH]; intros v Hv; [done|]. cbn [at_path]. destruct v as [| | | | | |m]; try done. destruct (mget m k) as [v|] eqn:E; [|done]. apply IH. by apply (clean_get m k).
Qed.
Lemma pods_of_is ns a (ds : list jobj) : Forall monitored ds ->
  List.filter (fun d => is_str a (app_of d) && is_str ns (at_ ["metadata"; "namespace"] d)) ds = List.filter (fun d => String.eqb (app_str d) a && String.eqb (ns_str d) ns) ds.
Proof.
  induction 1 as [|d ds H _ IH]; [done|]. destruct H as (s & n & a' & (E1 & _) & E2 & _). cbn [List.filter]. rewrite IH, E1, E2. unfold app_str, ns_str.
  rewrite (str_at_is _ _ _ E1), (str_at_is _ _ _ E2). done.
Qed.

Section pods.
Context {FF : FloatFmt} {EE : ExprEnv}.
Hypothesis HP : reads_fields.
Hypothesis HQ : reads_pods.
Hypothesis HO : is_order iterate.
Variable sortv : list json -> list json.
Hypothesis HS : forall l, Permutation (sortv l) l.

Lemma raw_gives q d v : match q with String c (String c2 _) => c = dollar /\ c2 = "."%char | _ => False end -> q <> "$." ->
  get_raw q (JMap d) = Val v -> is_str "@now" v = false -> gives (strE q) (Ctx (JMap d) JNull) v.
Proof.
  intros Hq Hq2 HR HN. unfold gives. change (eval (strE q) (Ctx (JMap d) JNull)) with (rbind (get_path (Ctx (JMap d) JNull) q) (fun v => Val (if is_str "@now" v then JStr now else v))).
  assert (get_path (Ctx (JMap d) JNull) q = Val v) as ->; [|cbn [rbind]; by rewrite HN].
  destruct q as [|c q]; [done|]. destruct q as [|c2 q]; [done|]. destruct Hq as [-> ->]. unfold get_path. rewrite decide_True by done.
  rewrite (decide_False (P := String dollar (String "." q) = "$.")) by done. rewrite (decide_False (P := String dollar (String "." q) = "$$.")) by done. exact HR.
Qed.
Lemma pd_project_gives d : monitored d -> eval_doc pd_project d = Some (JMap (pd_pr d)).
Proof.
  intros (ns & n & a & (A1 & A2 & A3 & A4) & B1 & B2 & _ & B3). destruct HQ as (Q1 & Q2 & _).
  unfold eval_doc. assert (gives pd_project (Ctx (JMap d) JNull) (JMap (pd_pr d))) as ->; [|done].
  unfold pd_project, pd_pr, pd_out, app_str, ns_str, pod_status. unfold app_of in B1. rewrite (str_at_is _ _ _ A1), (str_at_is _ _ _ B1), A2.
  apply (two_gives HO "metadata" "pods" _ _ _ (JMap [("name", JStr a); ("namespace", JStr ns)]) (JMap [("podName", JStr n); ("ready", ready_of d)])); [reflexivity| |exact I| |exact I|reflexivity].
  - apply (two_gives HO "name" "namespace" _ _ _ (JStr a) (JStr ns)); [reflexivity| |by apply text_inert| |by apply text_inert|reflexivity].
    + apply raw_gives; [done|done| |by apply text_now]. by rewrite Q1, B1.
    + by_path HP ["metadata"; "namespace"]; [|exact A1]. rewrite A1. by apply text_now.
  - apply (two_gives HO "podName" "ready" _ _ _ (JStr n) (ready_of d)); [reflexivity| |by apply text_inert| | |reflexivity].
    + by_path HP ["metadata"; "name"]; [|exact A2]. rewrite A2. by apply text_now.
    + apply raw_gives; [done|done|apply Q2|]. by apply scalar_now.
    + destruct (ready_of d); try done. by apply text_inert.
Qed.
Lemma pd_key_gives d : monitored d -> gather_key pd_key (strE "$.pods") (pd_pr d) = Some (enc_str (pd_text d)) /\ eval_doc (strE "$.pods") (pd_pr d) = Some (pod_status d).
Proof.
  intros (ns & n & a & (A1 & A2 & A3 & A4) & B1 & B2 & _). unfold app_of in B1.
  assert (E1 : eval_doc pd_key (pd_pr d) = Some (JStr (pd_text d))).
  { unfold eval_doc, pd_pr, pd_text, app_str, ns_str. rewrite (str_at_is _ _ _ A1), (str_at_is _ _ _ B1).
    assert (gives pd_key (Ctx (JMap (pd_out ns a (pod_status d))) JNull) (JStr (a +:+ "--" +:+ ns))) as ->; [|done].
    change (a +:+ "--" +:+ ns) with (String.concat "" [a; "--"; ns]). apply concat_gives.
    apply Forall2_cons_2; [|apply Forall2_cons_2; [by apply lit_gives|apply Forall2_cons_2; [|apply Forall2_nil_2]]].
    - by_path HP ["metadata"; "name"]; [by apply text_now|reflexivity].
    - by_path HP ["metadata"; "namespace"]; [by apply text_now|reflexivity]. }
  assert (E2 : eval_doc (strE "$.pods") (pd_pr d) = Some (pod_status d)).
  { unfold eval_doc. assert (gives (strE "$.pods") (Ctx (JMap (pd_pr d)) JNull) (pod_status d)) as ->; [|done]. by_path HP ["pods"]; reflexivity. }
  split; [|done]. unfold gather_key. by rewrite E1, E2.
Qed.
Lemma pd_text_inj l d d' : Forall monitored l -> Forall (fun d => clean d = true) l -> splits l -> In d l -> In d' l ->
  enc_str (pd_text d) = enc_str (pd_text d') -> app_str d = app_str d' /\ ns_str d = ns_str d'.
Proof.
  intros HM HC HSp Hd Hd' E. rewrite List.Forall_forall in HM, HC.
  destruct (HM d Hd) as (ns & n & a & (A1 & _) & B1 & _), (HM d' Hd') as (ns' & n' & a' & (A1' & _) & B1' & _).
  pose proof (at_clean ["metadata"; "labels"; "app"] _ (HC d Hd)) as U1. pose proof (at_clean ["metadata"; "labels"; "app"] _ (HC d' Hd')) as U2.
  pose proof (at_clean ["metadata"; "namespace"] _ (HC d Hd)) as U3. pose proof (at_clean ["metadata"; "namespace"] _ (HC d' Hd')) as U4.
  unfold app_of in *. rewrite B1 in U1. rewrite B1' in U2. rewrite A1 in U3. rewrite A1' in U4.
  unfold pd_text, app_str, ns_str in *. rewrite (str_at_is _ _ _ A1), (str_at_is _ _ _ A1'), (str_at_is _ _ _ B1), (str_at_is _ _ _ B1') in *.
  destruct (enc_str_unique (a +:+ "--" +:+ ns) (a' +:+ "--" +:+ ns') "" "") as [E' _]; [repeat apply utf8_app; done..| |by apply (HSp d d')]. by rewrite E.
Qed.

Lemma gather_values_perm k v j l l' : Permutation l l' -> Permutation (gather_values k v j l) (gather_values k v j l').
Proof. intros H. unfold gather_values. by apply Permutation_flat_map. Qed.
Lemma pd_values l d : Forall monitored l -> Forall (fun d => clean d = true) l -> splits l -> In d l ->
  gather_values pd_key (strE "$.pods") (enc_str (pd_text d)) (map pd_pr l) = map pod_status (List.filter (fun x => String.eqb (app_str x) (app_str d) && String.eqb (ns_str x) (ns_str d)) l).
Proof.
  intros HM HC HSp Hd. assert (G : forall l', (forall x, In x l' -> In x l) ->
    gather_values pd_key (strE "$.pods") (enc_str (pd_text d)) (map pd_pr l') = map pod_status (List.filter (fun x => String.eqb (app_str x) (app_str d) && String.eqb (ns_str x) (ns_str d)) l')).
  { induction l' as [|x l' IH]; intros Hl; [done|]. cbn [map List.filter]. unfold gather_values in *. cbn [flat_map]. rewrite IH by (intros; apply Hl; by right).
    assert (Hx : In x l) by (apply Hl; by left). assert (Mx : monitored x) by (rewrite List.Forall_forall in HM; by apply HM). destruct (pd_key_gives x Mx) as [E1 E2]. rewrite E2.
    case_decide as D; rewrite E1 in D.
    - assert (enc_str (pd_text x) = enc_str (pd_text d)) as D' by congruence. destruct (pd_text_inj l x d HM HC HSp Hx Hd D') as [-> ->]. by rewrite !String.eqb_refl.
    - destruct (String.eqb_spec (app_str x) (app_str d)) as [X1|]; [|done]. destruct (String.eqb_spec (ns_str x) (ns_str d)) as [X2|]; [|done].
      exfalso. apply D. unfold pd_text. by rewrite X1, X2. }
  by apply G.
Qed.
(** What the two stages yield. *)
Definition same_group (d x : jobj) : bool := String.eqb (app_str x) (app_str d) && String.eqb (ns_str x) (ns_str d).
Lemma pd_mean l R : Forall monitored l -> Forall (fun d => clean d = true) l -> splits l -> stages_mean sortv pd_stages l R ->
  NoDup (map doc_id R)
  /\ (forall r, In r R -> exists d ps, In d l /\ Permutation ps (map pod_status (List.filter (same_group d) l)) /\ r = pd_out (ns_str d) (app_str d) (JList ps))
  /\ forall d, In d l -> exists ps, Permutation ps (map pod_status (List.filter (same_group d) l)) /\ In (pd_out (ns_str d) (app_str d) (JList ps)) R.
Proof.
  intros HM HC HSp HR. inversion HR as [|s1 p1 la l1 l2 lb H1 H2 H3]; subst. inversion H3 as [|s2 p2 lc l2' l3 ld H4 H5 H6]; subst. inversion H6 as [le lf H7|]; subst. clear HR H3 H6.
  unfold stage_means in H2, H5. cbn [st_kind st_expr] in H2, H5.
  assert (E2 : l2 = map pd_pr l1).
  { assert (Forall monitored l1) as HM1. { apply List.Forall_forall. intros x Hx. rewrite List.Forall_forall in HM. apply HM. by apply (Permutation_in _ (Permutation_sym H1)). }
    clear -H2 HM1 HP HQ HO. revert l2 H2. induction HM1 as [|x l1 Mx _ IH]; intros l2 H2; unfold projects in H2; [by apply Forall2_nil_inv_l in H2|].
    apply Forall2_cons_inv_l in H2 as (d & l & Hd & Hl & ->). cbn [map]. f_equal; [|by apply IH]. pose proof (pd_project_gives x Mx) as E. destruct Hd as [Hd|(us & Hd & _)]; congruence. }
  subst l2. destruct H5 as (k & v & [= <- <-] & (groups & -> & ND & HI & HG)).
  assert (HL : Permutation l2' (map pd_pr l)). { rewrite <-H4. apply Permutation_map. by symmetry. }
  assert (KD : forall x, In x l2' -> exists d, In d l /\ x = pd_pr d /\ monitored d).
  { intros x Hx. apply (Permutation_in _ HL) in Hx. apply in_map_iff in Hx as (d & <- & Hd). exists d. split_and!; [done|done|]. rewrite List.Forall_forall in HM. by apply HM. }
  assert (HG' : forall j r, In (j, r) groups -> exists d ps, In d l /\ j = enc_str (pd_text d) /\ Permutation ps (map pod_status (List.filter (same_group d) l)) /\ r = pd_out (ns_str d) (app_str d) (JList ps)).
  { intros j r Hr. destruct (HG j r Hr) as (path & x & vs & Hp & Hx & Hk & Hvs & Hset). injection Hp as <-. destruct (KD x Hx) as (d & Hd & -> & Md).
    destruct (pd_key_gives d Md) as [E1 E2]. rewrite E1 in Hk. injection Hk as <-. destruct HQ as (_ & _ & Q3). rewrite Q3 in Hset. injection Hset as <-.
    eexists d, _. split_and!; [done|done| |reflexivity].
    assert (Permutation vs (map pod_status (List.filter (same_group d) l))) as Hv.
    { rewrite Hvs. rewrite (gather_values_perm _ _ _ _ _ HL). by rewrite (pd_values l d). }
    destruct vs as [|v1 [|v2 vs]]; [done|done|]. by rewrite HS. }
  assert (Hid : forall d ps, In d l -> doc_id (pd_out (ns_str d) (app_str d) (JList ps)) = Some (ns_str d, app_str d)).
  { intros d ps Hd. rewrite List.Forall_forall in HM. destruct (HM d Hd) as (ns & n & a & _ & B1 & B2 & _). unfold app_of in B1. unfold app_str. rewrite (str_at_is _ _ _ B1).
    destruct a as [|c a]; [done|]. reflexivity. }
  split_and!.
  - rewrite <-H7. clear H7 HI HG. induction groups as [|[j r] groups IH]; [apply NoDup_nil; done|]. cbn [map fst snd] in *. apply NoDup_cons in ND as [Hn ND].
    apply NoDup_cons. split; [|apply IH; [done|intros; apply HG'; by right]]. intros Hin.
    apply elem_of_list_In, in_map_iff in Hin as (r' & Er & Hr'). apply in_map_iff in Hr' as ([j' r2] & <- & Hr'). cbn [snd] in Er.
    destruct (HG' j r (or_introl eq_refl)) as (d & ps & Hd & Ej & _ & ->), (HG' j' r2 (or_intror Hr')) as (d' & ps' & Hd' & Ej' & _ & ->).
    rewrite !Hid in Er by done. injection Er as X1 X2. apply Hn. apply elem_of_list_In, in_map_iff. exists (j', pd_out (ns_str d') (app_str d') (JList ps')). split; [|done].
    cbn [fst]. rewrite Ej, Ej'. unfold pd_text. by rewrite X1, X2.
  - intros r Hr. apply (Permutation_in _ (Permutation_sym H7)) in Hr. apply in_map_iff in Hr as ([j r'] & <- & Hr). destruct (HG' j r' Hr) as (d & ps & ? & _ & ? & ?). by exists d, ps.
  - intros d Hd. assert (Md : monitored d) by (rewrite List.Forall_forall in HM; by apply HM). destruct (pd_key_gives d Md) as [E1 _].
    assert (In (enc_str (pd_text d)) (map fst groups)) as Hj. { apply HI. exists (pd_pr d). split; [|done]. apply (Permutation_in _ (Permutation_sym HL)). by apply in_map. }
    apply in_map_iff in Hj as ([j r] & Ej & Hr). cbn [fst] in Ej. subst j. destruct (HG' _ r Hr) as (d' & ps & Hd' & Ej & Hps & ->).
    destruct (pd_text_inj l d d' HM HC HSp Hd Hd' Ej) as [X1 X2]. exists ps. unfold same_group. rewrite X1, X2. split; [exact Hps|].
    apply (Permutation_in _ H7). apply in_map_iff. eexists. split; [|exact Hr]. done.
Qed.

Definition pods_history (ds : list delta) : Prop := Forall (fun d => monitored (stripped (d_obj d))) ds.
Lemma pods_named ds : pods_history ds -> named_history ds.
Proof. intros H. eapply Forall_impl; [exact H|]. clear H. intros d (ns & n & a & H & _). eexists. by apply (located_id _ ns n). Qed.
Lemma pods_kind ds : history_ok clean [pod_kind] ∅ ds -> pods_history ds -> Forall monitored (of_kind "Pod" (after ds)) /\ Forall (fun d => clean d = true) (of_kind "Pod" (after ds)).
Proof.
  intros HH HM. split; apply List.Forall_forall; intros d Hd; destruct (of_kind_in _ _ "Pod" _ ltac:(done) HH Hd) as (_ & Hc & x & Hx); [|done]. by eapply (after_all monitored).
Qed.
Lemma pd_names ds R : history_ok clean [pod_kind] ∅ ds -> pods_history ds -> splits (of_kind "Pod" (after ds)) -> yields sortv [pod_kind] pd_stages (after ds) R -> one_per_name R.
Proof.
  intros HH HM HSp (s & [= <-] & HY). destruct (pods_kind ds HH HM) as [M C]. destruct (pd_mean _ _ M C HSp HY) as (ND & HI & _). split; [done|].
  intros r Hr. destruct (HI r Hr) as (d & ps & Hd & _ & ->). rewrite List.Forall_forall in M. destruct (M d Hd) as (ns & n & a & L & B1 & B2 & B3 & _). unfold app_of in B1.
  pose proof L as (A1 & _). unfold ns_str, app_str. rewrite (str_at_is _ _ _ A1), (str_at_is _ _ _ B1). exists (ns, a). split; [by destruct a|]. split; [|done].
  destruct (kind_names [pod_kind] ds "Pod" HH ltac:(apply NoDup_singleton) (pods_named _ HM)) as [_ HN]. destruct (HN d Hd) as (i & Hi & [Hp _]). rewrite (located_id _ _ _ L) in Hi. by injection Hi as <-.
Qed.
Lemma pods_holds p pp o ds p' outs :
  fmt_ok -> fmt_inj -> env_clean -> unmarshal_pipeline pods_json = Val p -> declare clean health_view [pod_kind] p = Some pp ->
  order_ok o -> history_ok clean [pod_kind] ∅ ds -> pods_history ds -> (forall pre post, ds = (pre ++ post)%list -> splits (of_kind "Pod" (after pre))) ->
  pipe_run clean sortv o 0 pp ds = (p', map Some outs) ->
  forall ns a, match apply_ops no_objects (concat outs) (ns, a) with
    | None => pods_of ns a (after ds) = []
    | Some m => pods_of ns a (after ds) <> [] /\ exists ps, Permutation ps (map pod_status (pods_of ns a (after ds))) /\ m = view_of ns a ps
    end.
Proof.
  intros F1 F2 HE HU HD Ho HH HM HSp HR ns a. rewrite pods_stages in HU. injection HU as <-.
  assert (HPre : forall pre post, ds = (pre ++ post)%list -> history_ok clean [pod_kind] ∅ pre /\ pods_history pre).
  { intros pre post ->. apply history_app in HH as [HH _]. by apply Forall_app in HM as [HM _]. }
  destruct (C51_meaning_partial FF EE sortv health_view [pod_kind] pd_stages pp o ds p' outs F1 F2) as (R & HY & HT); try done.
  - apply NoDup_singleton.
  - repeat (apply List.Forall_cons; [apply (C51_tidy _ _ HE); vm_compute; reflexivity|]). apply List.Forall_nil.
  - intros pre post R E HY. destruct (HPre _ _ E). eapply pd_names; [done..| |exact HY]. by eapply HSp.
  - destruct HY as (s & [= <-] & HY). destruct (pods_kind ds HH HM) as [M C]. specialize (HSp ds [] (eq_sym (app_nil_r ds))). destruct (pd_mean _ _ M C HSp HY) as (_ & HI & HJ).
    unfold pods_of. rewrite (pods_of_is ns a _ M).
    assert (HID : forall d ps, In d (of_kind "Pod" (after ds)) -> doc_id (pd_out (ns_str d) (app_str d) (JList ps)) = Some (ns_str d, app_str d)
      /\ encapsulate health_view (pd_out (ns_str d) (app_str d) (JList ps)) (ns_str d) (app_str d) = view_of (ns_str d) (app_str d) ps).
    { intros d ps Hd. rewrite List.Forall_forall in M. destruct (M d Hd) as (ns' & n & a' & (A1 & _ & A3 & _) & B1 & B2 & _). unfold app_of in B1. unfold app_str, ns_str.
      rewrite (str_at_is _ _ _ B1), (str_at_is _ _ _ A1). destruct a' as [|c a']; [done|]. destruct ns' as [|c' ns']; [done|]. split; reflexivity. }
    destruct (apply_ops no_objects (concat outs) (ns, a)) as [m|] eqn:ET.
    + apply HT in ET as (r & Hr & Hi & ->). destruct (HI r Hr) as (d & ps & Hd & Hps & ->). destruct (HID d ps Hd) as [E1 E2]. rewrite E1 in Hi. injection Hi as <- <-. split.
      * intros EN. assert (In d []) as []. rewrite <-EN. apply filter_In. split; [done|]. by rewrite !String.eqb_refl.
      * exists ps. split; [exact Hps|]. exact E2.
    + destruct (List.filter _ (of_kind "Pod" (after ds))) as [|d l] eqn:EF; [done|]. exfalso.
      assert (In d (d :: l)) as Hd by by left. rewrite <-EF in Hd. apply filter_In in Hd as [Hd [X1 X2]%andb_prop]. apply String.eqb_eq in X1, X2. subst a ns.
      destruct (HJ d Hd) as (ps & _ & Hin). destruct (HID d ps Hd) as [E1 E2].
      assert (apply_ops no_objects (concat outs) (ns_str d, app_str d) = Some (view_of (ns_str d) (app_str d) ps)) as E; [|congruence].
      apply HT. eexists. split_and!; [exact Hin|exact E1|]. symmetry. exact E2.
Qed.
End pods.

(** *** Both controllers *)
Lemma is_ready_pod d : is_ready (pod_status d) = is_str "True" (ready_of d).
Proof. unfold is_ready, pod_status. change (at_path ["ready"] (JMap [("podName", at_ ["metadata"; "name"] d); ("ready", ready_of d)])) with (ready_of d). by destruct (ready_of d). Qed.
Lemma ready_count l : length (List.filter is_ready (map pod_status l)) = length (List.filter (fun d => is_str "True" (ready_of d)) l).
Proof. induction l as [|d l IH]; [done|]. cbn [map List.filter]. rewrite is_ready_pod. destruct (is_str "True" (ready_of d)); cbn [length]; by rewrite IH. Qed.
Lemma filter_perm {A} (f : A -> bool) l l' : Permutation l l' -> Permutation (List.filter f l) (List.filter f l').
Proof.
  induction 1 as [|x l l' H IH|x y l|l1 l2 l3 H1 IH1 H2 IH2]; cbn [List.filter]; [done|by destruct (f x); [apply perm_skip|]| |by etransitivity].
  destruct (f x), (f y); try done. apply perm_swap.
Qed.
