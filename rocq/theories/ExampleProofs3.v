(** The example that counts the ready pods of services: from HealthViews to Services. *)
From Verif Require Import JsonModel ObjModel ZSetModel OpsModel ExecModel PipelineModel ValueModel PipeJsonModel StageModel ExampleModel.
From Verif Require Import ExprSpec ZSetSpec OpsSpec ExecSpec JsonSpec CleanSpec PipelineSpec StageSpec ExampleSpec.
From Verif Require Import JsonProofs ExprProofs2 ExprProofs3 ConvertProofs PipeProofs PipeProofs2 PipeProofs3 StageNames StageProofs StageClean PropsExpr PropsStage ExampleProofs ExampleProofs2.
#[local] Open Scope string_scope.

Definition hv_join : expr :=
  opl "@and"
    [opl "@eq" [strE "$.HealthView.metadata.name"; strE "$.Service.metadata.name"];
     opl "@eq" [strE "$.HealthView.metadata.namespace"; strE "$.Service.metadata.namespace"]].
Definition hv_ready : expr := opl "@eq" [strE "$$.ready"; strE "True"].
Definition hv_count : expr :=
  opl "@concat"
    [op1 "@string" (op1 "@len" (opl "@filter" [hv_ready; strE "$.HealthView.pods"])); strE "/"; op1 "@string" (op1 "@len" (strE "$.HealthView.pods"))].
Definition hv_project : expr :=
  dictE [("metadata",
    dictE [("annotations", dictE [("dcontroller.io/pod-ready", hv_count)]);
           ("name", strE "$.Service.metadata.name");
           ("namespace", strE "$.Service.metadata.namespace")])].
Lemma health_stages : unmarshal_pipeline health_json = Val [Stage KJoin hv_join; Stage KProject hv_project].
Proof. reflexivity. Qed.
Notation hv_sources := [health_view; service].

Definition hv_sel (ds : list jobj) : bool :=
  match ds with
  | [hv; sv] =>
      forallb (fun b => b)
        [is_str (str_at ["metadata"; "name"] hv) (at_ ["metadata"; "name"] sv);
         is_str (str_at ["metadata"; "namespace"] hv) (at_ ["metadata"; "namespace"] sv)]
  | _ => false
  end.
Definition ratio (ready total : nat) : string := enc_int (Z.of_nat ready) +:+ "/" +:+ enc_int (Z.of_nat total).
Definition hv_out (ns n : string) (ready total : nat) : jobj :=
  [("metadata", JMap [("annotations", JMap [("dcontroller.io/pod-ready", JStr (ratio ready total))]); ("name", JStr n); ("namespace", JStr ns)])].
Definition readies (d : jobj) : nat := length (List.filter is_ready (pods_in d)).
Definition hv_pr (ds : list jobj) : jobj :=
  match ds with
  | [hv; sv] => hv_out (str_at ["metadata"; "namespace"] sv) (str_at ["metadata"; "name"] sv) (readies hv) (length (pods_in hv))
  | _ => []
  end.

(** A number is text that is no path. *)
Lemma digits_text (n : nat) : text (enc_int (Z.of_nat n)).
Proof.
  pose proof (enc_int_digits n) as H. destruct (enc_int (Z.of_nat n)) as [|c s] eqn:E.
  - exfalso. unfold enc_int in E. destruct (Z.of_nat n) as [|p|p] eqn:En; [done| |lia]. change (pretty (N.pos p) = "") in E. unfold pretty, pretty_N in E. case_decide; [done|].
    assert (G : forall m s, s <> "" -> pretty_N_go m s <> "").
    { clear. intros m. induction (N.lt_wf_0 m) as [m _ IH]. intros s Hs. destruct (decide (m = 0%N)) as [->|Hm]; [by rewrite pretty_N_go_0|].
      rewrite pretty_N_go_step by lia. apply IH; [apply N.div_lt; lia|done]. }
    rewrite pretty_N_go_step in E by lia. by apply G in E.
  - cbn [all_digits] in H. apply andb_prop in H as [H _]. split; intros ->; vm_compute in H; done.
Qed.

Section health.
Context {FF : FloatFmt} {EE : ExprEnv}.
Hypothesis HP : reads_fields.
Hypothesis HO : is_order iterate.
Notation comb hv sv := (combination (map gvk_kind hv_sources) [hv; sv]).

Lemma string_gives e ctx (n : nat) : gives e ctx (JInt (Z.of_nat n)) -> gives (op1 "@string" e) ctx (JStr (enc_int (Z.of_nat n))).
Proof.
  intros H. unfold gives in *. pose proof (digits_text n) as T.
  change (eval (op1 "@string" e) ctx) with (rbind (eval e ctx) (fun v => rbind (or_err (as_string v)) (fun s => rbind (get_path ctx s) (fun v => Val (if is_str "@now" v then JStr now else v))))).
  rewrite H. cbn [rbind as_string or_err].
  assert (get_path ctx (enc_int (Z.of_nat n)) = Val (JStr (enc_int (Z.of_nat n)))) as ->.
  { destruct (enc_int (Z.of_nat n)) as [|c s]; [done|]. destruct T as [T _]. unfold get_path. by rewrite decide_False. }
  cbn [rbind]. by rewrite text_now.
Qed.
Definition scalar_or_null (v : json) : Prop := match v with JNull => True | JStr s => text s | _ => False end.
Lemma scalar_now v : scalar_or_null v -> is_str "@now" v = false.
Proof. destruct v; try done. apply text_now. Qed.
Lemma ready_gives d x : match x with JMap _ => scalar_or_null (at_path ["ready"] x) | _ => False end -> gives hv_ready (Ctx d x) (JBool (is_ready x)).
Proof.
  intros Hx. destruct x as [| | | | | |x]; try done.
  assert (H1 : gives (strE "$$.ready") (Ctx d (JMap x)) (at_path ["ready"] (JMap x))).
  { apply (subject_gives HP ["ready"] d (JMap x)); [done|done|words|by apply scalar_now]. }
  assert (H2 : gives (strE "True") (Ctx d (JMap x)) (JStr "True")) by by apply lit_gives.
  unfold gives, hv_ready. change (eval (opl "@eq" [strE "$$.ready"; strE "True"]) (Ctx d (JMap x))) with (rbind (eval (listE [strE "$$.ready"; strE "True"]) (Ctx d (JMap x))) op_eq).
  assert (E : eval (listE [strE "$$.ready"; strE "True"]) (Ctx d (JMap x)) = Val (JList (unpack [at_path ["ready"] (JMap x); JStr "True"]))).
  { apply (list_gives _ _ [at_path ["ready"] (JMap x); JStr "True"]). apply Forall2_cons_2; [done|]. apply Forall2_cons_2; [done|]. apply Forall2_nil_2. }
  rewrite E. unfold is_ready. destruct (at_path ["ready"] (JMap x)); try done.
Qed.
Lemma hv_join_gives hv sv : health_object hv -> health_object sv -> eval_doc hv_join (comb hv sv) = Some (JBool (hv_sel [hv; sv])).
Proof.
  intros ((ns1 & n1 & A1 & A2 & A3 & A4) & _) ((ns2 & n2 & B1 & B2 & B3 & B4) & _).
  unfold eval_doc. assert (gives hv_join (Ctx (JMap (comb hv sv)) JNull) (JBool (hv_sel [hv; sv]))) as ->; [|done].
  unfold hv_join, hv_sel. rewrite (str_at_is _ _ _ A1), (str_at_is _ _ _ A2).
  apply and_gives. repeat (apply Forall2_cons_2; [apply eq_gives|]); [..|apply Forall2_nil_2].
  - by_path HP ["HealthView"; "metadata"; "name"]; change (is_str "@now" (at_ ["metadata"; "name"] hv) = false) || exact A2. rewrite A2. by apply text_now.
  - by_path HP ["Service"; "metadata"; "name"]; [|reflexivity]. change (is_str "@now" (at_ ["metadata"; "name"] sv) = false). rewrite B2. by apply text_now.
  - by_path HP ["HealthView"; "metadata"; "namespace"]; change (is_str "@now" (at_ ["metadata"; "namespace"] hv) = false) || exact A1. rewrite A1. by apply text_now.
  - by_path HP ["Service"; "metadata"; "namespace"]; [|reflexivity]. change (is_str "@now" (at_ ["metadata"; "namespace"] sv) = false). rewrite B1. by apply text_now.
Qed.
Lemma hv_project_gives hv sv : health_object hv -> health_object sv -> get_kind hv = "HealthView" ->
  eval_doc hv_project (comb hv sv) = Some (JMap (hv_pr [hv; sv])).
Proof.
  intros (_ & A) ((ns2 & n2 & B1 & B2 & B3 & B4) & _) HK. destruct (A HK) as (ps & Hps & HF).
  unfold eval_doc. assert (gives hv_project (Ctx (JMap (comb hv sv)) JNull) (JMap (hv_pr [hv; sv]))) as ->; [|done].
  unfold hv_project, hv_pr. rewrite (str_at_is _ _ _ B1), (str_at_is _ _ _ B2). unfold readies, pods_in. rewrite Hps.
  assert (G : gives (strE "$.HealthView.pods") (Ctx (JMap (comb hv sv)) JNull) (JList ps)).
  { by_path HP ["HealthView"; "pods"]; [|exact Hps]. change (is_str "@now" (at_ ["pods"] hv) = false). by rewrite Hps. }
  apply (one_gives HO "metadata"); [reflexivity| |exact I].
  apply (three_gives HO "annotations" "name" "namespace" _ _ _ _ (JMap [("dcontroller.io/pod-ready", JStr (ratio (length (List.filter is_ready ps)) (length ps)))]) (JStr n2) (JStr ns2));
    [reflexivity| |exact I| |by apply text_inert| |by apply text_inert|reflexivity].
  - apply (one_gives HO "dcontroller.io/pod-ready"); [reflexivity| |].
    + assert (ratio (length (List.filter is_ready ps)) (length ps) = String.concat "" [enc_int (Z.of_nat (length (List.filter is_ready ps))); "/"; enc_int (Z.of_nat (length ps))]) as -> by reflexivity.
      apply concat_gives. apply Forall2_cons_2; [|apply Forall2_cons_2; [by apply lit_gives|apply Forall2_cons_2; [|apply Forall2_nil_2]]].
      * apply string_gives. apply C43_len. apply C43_filter; [done|]. intros x Hx. apply ready_gives. rewrite Forall_forall in HF. specialize (HF x Hx). cbn in HF. exact HF.
      * apply string_gives. by apply C43_len.
    + unfold ratio. pose proof (digits_text (length (List.filter is_ready ps))) as T. destruct (enc_int (Z.of_nat (length (List.filter is_ready ps)))) as [|c s]; [done|]. by destruct T as [T _].
  - by_path HP ["Service"; "metadata"; "name"]; change (is_str "@now" (at_ ["metadata"; "name"] sv) = false) || exact B2. rewrite B2. by apply text_now.
  - by_path HP ["Service"; "metadata"; "namespace"]; change (is_str "@now" (at_ ["metadata"; "namespace"] sv) = false) || exact B1. rewrite B1. by apply text_now.
Qed.

Definition health_history (ds : list delta) : Prop := Forall (fun d => health_object (stripped (d_obj d))) ds.
Lemma health_named ds : health_history ds -> named_history ds.
Proof. intros H. eapply Forall_impl; [exact H|]. clear H. intros d ((ns & n & H) & _). eexists. by apply (located_id _ ns n). Qed.
Lemma health_in {ds c k d} : history_ok clean hv_sources ∅ ds -> health_history ds -> In d (of_kind (String c k) (after ds)) -> health_object d /\ get_kind d = String c k.
Proof. assert (String c k <> "") as Hk by done. intros HH HC Hd. destruct (of_kind_in _ _ _ _ Hk HH Hd) as (? & _ & x & Hx). split; [|done]. by eapply (after_all health_object). Qed.
Lemma hv_kinds : NoDup (map gvk_kind hv_sources).
Proof. apply NoDup_ListNoDup. repeat (constructor; [vm_compute; intuition discriminate|]). constructor. Qed.
Notation hv_combos w := (picks (map (fun s => of_kind (gvk_kind s) w) hv_sources)).
Lemma hv_combo w x : In x (hv_combos w) <-> exists hv sv, x = [hv; sv] /\ In hv (of_kind "HealthView" w) /\ In sv (of_kind "Service" w).
Proof.
  rewrite picks_in. cbn [map]. split.
  - intros E. apply Forall2_cons_inv_r in E as (hv & y & H1 & E & ->). apply Forall2_cons_inv_r in E as (sv & z & H2 & E & ->).
    apply Forall2_nil_inv_r in E as ->. by exists hv, sv.
  - intros (hv & sv & -> & H1 & H2). repeat (apply Forall2_cons_2; [done|]). apply Forall2_nil_2.
Qed.
Lemma hv_yields sortv ds R : history_ok clean hv_sources ∅ ds -> health_history ds ->
  yields sortv hv_sources [Stage KJoin hv_join; Stage KProject hv_project] (after ds) R -> Permutation (map hv_pr (List.filter hv_sel (hv_combos (after ds)))) R.
Proof.
  intros HH HC. apply join_project_is.
  - intros x Hx. apply hv_combo in Hx as (hv & sv & -> & H1 & H2). destruct (health_in HH HC H1), (health_in HH HC H2). by apply hv_join_gives.
  - intros x Hx _. apply hv_combo in Hx as (hv & sv & -> & H1 & H2). destruct (health_in HH HC H1), (health_in HH HC H2). by apply hv_project_gives.
Qed.
Lemma hv_selected hv sv : health_object hv -> health_object sv -> hv_sel [hv; sv] = true ->
  exists ns n, located hv ns n /\ located sv ns n /\ hv_pr [hv; sv] = hv_out ns n (readies hv) (length (pods_in hv)).
Proof.
  intros ((ns1 & n1 & LA) & _) ((ns2 & n2 & LB) & _) H. pose proof LA as (A1 & A2 & _). pose proof LB as (B1 & B2 & _).
  unfold hv_sel in H. rewrite (str_at_is _ _ _ A1), (str_at_is _ _ _ A2), B1, B2 in H. cbn [forallb] in H. rewrite andb_true_r in H.
  apply andb_prop in H as [H1 H2]. apply is_str_true in H1, H2. injection H1 as ->. injection H2 as ->.
  exists ns1, n1. split_and!; try done. unfold hv_pr. by rewrite (str_at_is _ _ _ B1), (str_at_is _ _ _ B2).
Qed.
Lemma hv_out_id ns n a b : text n -> doc_id (hv_out ns n a b) = Some (ns, n).
Proof. intros H. destruct n as [|c n]; [done|]. reflexivity. Qed.
Lemma hv_out_patch ns n a b : text ns -> text n -> encapsulate service (hv_out ns n a b) ns n = ready_patch ns n a b.
Proof. intros H1 H2. destruct n as [|c n]; [done|]. destruct ns as [|b' ns]; [done|]. reflexivity. Qed.
Lemma hv_names sortv ds R : history_ok clean hv_sources ∅ ds -> health_history ds ->
  yields sortv hv_sources [Stage KJoin hv_join; Stage KProject hv_project] (after ds) R -> one_per_name R.
Proof.
  intros HH HC HY. apply (hv_yields _ _ _ HH HC) in HY. eapply one_per_name_perm; [exact HY|]. pose proof (health_named _ HC) as HN.
  assert (HK : forall k, one_per_name (of_kind k (after ds))) by (intros k; by apply (kind_names hv_sources ds k HH hv_kinds)).
  split.
  - rewrite map_map. apply nodup_map_inj.
    + apply nodup_filter, picks_nodup. repeat (apply List.Forall_cons; [apply names_nodup, HK|]). apply List.Forall_nil.
    + intros x y Hx Hy. apply filter_In in Hx as [Hx Sx]. apply filter_In in Hy as [Hy Sy].
      apply hv_combo in Hx as (hv & sv & -> & X1 & X2). apply hv_combo in Hy as (hv' & sv' & -> & Y1 & Y2).
      destruct (health_in HH HC X1), (health_in HH HC X2), (health_in HH HC Y1), (health_in HH HC Y2).
      destruct (hv_selected hv sv) as (ns & n & L1 & L2 & E); [done..|]. destruct (hv_selected hv' sv') as (ns' & n' & L1' & L2' & E'); [done..|].
      rewrite E, E', !hv_out_id by (apply L2 || apply L2'). intros [= <- <-].
      assert (hv = hv') as <-. { apply (names_inj _ _ _ (HK "HealthView")); [done..|]. by rewrite (located_id _ _ _ L1), (located_id _ _ _ L1'). }
      assert (sv = sv') as <-; [|done]. apply (names_inj _ _ _ (HK "Service")); [done..|]. by rewrite (located_id _ _ _ L2), (located_id _ _ _ L2').
  - intros d Hd. apply in_map_iff in Hd as (x & <- & Hx). apply filter_In in Hx as [Hx Sx]. apply hv_combo in Hx as (hv & sv & -> & X1 & X2).
    destruct (health_in HH HC X1), (health_in HH HC X2). destruct (hv_selected hv sv) as (ns & n & L1 & L2 & E); [done..|].
    rewrite E. exists (ns, n). split; [apply hv_out_id, L2|]. destruct (HK "Service") as [_ HK2]. destruct (HK2 sv X2) as (i & Hi & Hp). rewrite (located_id _ _ _ L2) in Hi. by injection Hi as <-.
Qed.
Lemma health_holds sortv p pp o ds p' outs :
  fmt_ok -> fmt_inj -> env_clean -> unmarshal_pipeline health_json = Val p -> declare clean service hv_sources p = Some pp ->
  order_ok o -> history_ok clean hv_sources ∅ ds -> health_history ds -> pipe_run clean sortv o 0 pp ds = (p', map Some outs) ->
  forall ns n m, apply_ops no_objects (concat outs) (ns, n) = Some m <->
    exists hv sv, In hv (of_kind "HealthView" (after ds)) /\ In sv (of_kind "Service" (after ds)) /\ located hv ns n /\ located sv ns n
      /\ m = ready_patch ns n (length (List.filter is_ready (pods_in hv))) (length (pods_in hv)).
Proof.
  intros F1 F2 HE HU HD Ho HH HC HR. rewrite health_stages in HU. injection HU as <-.
  assert (HPre : forall pre post, ds = (pre ++ post)%list -> history_ok clean hv_sources ∅ pre /\ health_history pre).
  { intros pre post ->. apply history_app in HH as [HH _]. by apply Forall_app in HC as [HC _]. }
  destruct (C51_meaning_partial FF EE sortv service hv_sources [Stage KJoin hv_join; Stage KProject hv_project] pp o ds p' outs F1 F2) as (R & HY & HT); try done.
  - apply hv_kinds.
  - repeat (apply List.Forall_cons; [apply (C51_tidy _ _ HE); vm_compute; reflexivity|]). apply List.Forall_nil.
  - intros pre post R E HY. destruct (HPre _ _ E). by eapply hv_names.
  - apply (hv_yields _ _ _ HH HC) in HY. intros ns n m. rewrite HT. clear HT. split.
    + intros (d & Hd & Hi & ->). apply (Permutation_in _ (Permutation_sym HY)) in Hd. apply in_map_iff in Hd as (x & <- & Hx). apply filter_In in Hx as [Hx Sx].
      apply hv_combo in Hx as (hv & sv & -> & X1 & X2). destruct (health_in HH HC X1), (health_in HH HC X2).
      destruct (hv_selected hv sv) as (ns' & n' & L1 & L2 & E); [done..|]. rewrite E in *.
      rewrite hv_out_id in Hi by apply L2. injection Hi as -> ->. cbn [fst snd]. exists hv, sv. split_and!; [done..|]. apply hv_out_patch; apply L2.
    + intros (hv & sv & X1 & X2 & L1 & L2 & ->). 
      assert (E : hv_pr [hv; sv] = hv_out ns n (readies hv) (length (pods_in hv))).
      { unfold hv_pr. destruct L2 as (E3 & E4 & _). by rewrite (str_at_is _ _ _ E3), (str_at_is _ _ _ E4). }
      exists (hv_out ns n (readies hv) (length (pods_in hv))). split_and!; [|apply hv_out_id, L2|symmetry; apply hv_out_patch; apply L2].
      apply (Permutation_in _ HY). rewrite <-E. apply in_map, filter_In. split; [apply hv_combo; by exists hv, sv|].
      unfold hv_sel. destruct L1 as (P3 & P4 & _), L2 as (P5 & P6 & _). rewrite (str_at_is _ _ _ P3), (str_at_is _ _ _ P4), P5, P6.
      cbn [forallb]. by rewrite !(proj2 (is_str_true _ _) eq_refl).
Qed.
End health.
