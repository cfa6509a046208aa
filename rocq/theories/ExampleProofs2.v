(** The example that restarts Deployments when a ConfigMap changes. *)
From Verif Require Import JsonModel ObjModel ZSetModel OpsModel ExecModel PipelineModel ValueModel PipeJsonModel StageModel ExampleModel.
From Verif Require Import ExprSpec ZSetSpec OpsSpec ExecSpec JsonSpec CleanSpec PipelineSpec StageSpec ExampleSpec.
From Verif Require Import JsonProofs ExprProofs2 ExprProofs3 ConvertProofs PipeProofs PipeProofs2 PipeProofs3 StageNames StageProofs StageClean PropsExpr PropsStage ExampleProofs.
#[local] Open Scope string_scope.

Ltac words := apply word_ok; vm_compute; reflexivity.
(** The literal path of the goal reads the fields [l]. *)
Ltac by_path HP l := 
  match goal with |- gives (strE _) (Ctx ?d ?x) _ =>
    let H := fresh in pose proof (path_gives HP l d x) as H;
    let r := eval vm_compute in ("$" +:+ dotted l) in change ("$" +:+ dotted l) with r in H;
    refine (eq_ind _ (fun v => gives _ _ v) (H _ _ _) _ _); clear H; [done|words| |]
  end.
Definition str_at (l : list string) (d : jobj) : string := match at_ l d with JStr s => s | _ => EmptyString end.
Lemma str_at_is l d s : at_ l d = JStr s -> str_at l d = s.
Proof. intros H. unfold str_at. by rewrite H. Qed.

Definition cd_join : expr :=
  opl "@and"
    [opl "@eq" [strE "$.ConfigMap.metadata.name"; strE "$.ConfigDeployment.spec.configMap"];
     opl "@eq" [strE "$.Deployment.metadata.name"; strE "$.ConfigDeployment.spec.deployment"];
     opl "@eq" [strE "$.ConfigMap.metadata.namespace"; strE "$.Deployment.metadata.namespace"];
     opl "@eq" [strE "$.ConfigMap.metadata.namespace"; strE "$.ConfigDeployment.metadata.namespace"]].
Definition cd_project : expr :=
  dictE [("metadata", dictE [("name", strE "$.Deployment.metadata.name"); ("namespace", strE "$.Deployment.metadata.namespace")]);
         ("spec", dictE [("template", dictE [("metadata", dictE [("annotations",
            dictE [("dcontroller.io/configmap-version", strE "$.ConfigMap.metadata.resourceVersion")])])])])].
Lemma configdep_stages : unmarshal_pipeline configdep_json = Val [Stage KJoin cd_join; Stage KProject cd_project].
Proof. reflexivity. Qed.
Notation cd_sources := [config_map; deployment; config_deployment].

Definition cd_sel (ds : list jobj) : bool :=
  match ds with
  | [cm; dp; cd] =>
      forallb (fun b => b)
        [is_str (str_at ["metadata"; "name"] cm) (at_ ["spec"; "configMap"] cd);
         is_str (str_at ["metadata"; "name"] dp) (at_ ["spec"; "deployment"] cd);
         is_str (str_at ["metadata"; "namespace"] cm) (at_ ["metadata"; "namespace"] dp);
         is_str (str_at ["metadata"; "namespace"] cm) (at_ ["metadata"; "namespace"] cd)]
  | _ => false
  end.
Definition cd_out (ns n v : string) : jobj :=
  [("metadata", JMap [("name", JStr n); ("namespace", JStr ns)]);
   ("spec", JMap [("template", JMap [("metadata", JMap [("annotations", JMap [("dcontroller.io/configmap-version", JStr v)])])])])].
Definition cd_pr (ds : list jobj) : jobj :=
  match ds with
  | [cm; dp; cd] => cd_out (str_at ["metadata"; "namespace"] dp) (str_at ["metadata"; "name"] dp) (str_at ["metadata"; "resourceVersion"] cm)
  | _ => []
  end.
Lemma is_str_true s v : is_str s v = true <-> v = JStr s.
Proof. destruct v; cbn; try done. rewrite String.eqb_eq. split; [by intros ->|by intros [= ->]]. Qed.

Section dict.
Context {FF : FloatFmt} {EE : ExprEnv}.
Hypothesis HO : is_order iterate.
Definition good_key (k : string) : bool := match k with EmptyString => false | String c _ => negb (bool_decide (c = dollar)) end.
Lemma good_key_ok k : good_key k = true -> k <> EmptyString /\ plain_key k.
Proof. destruct k as [|c k]; [done|]. intros H. split; [done|]. cbn in *. apply negb_true_iff, bool_decide_eq_false in H. done. Qed.
Lemma one_gives k e ctx v : good_key k = true -> gives e ctx v -> inert v -> gives (dictE [(k, e)]) ctx (JMap [(k, v)]).
Proof.
  intros Hk He Hv. apply (dict_gives [(k, e)] ctx [v] HO).
  - apply NoDup_singleton.
  - apply List.Forall_cons; [by apply good_key_ok|apply List.Forall_nil].
  - apply Forall2_cons_2; [done|apply Forall2_nil_2].
Qed.
Lemma two_gives k1 k2 e1 e2 ctx v1 v2 r : good_key k1 && good_key k2 && negb (String.eqb k1 k2) = true ->
  gives e1 ctx v1 -> inert v1 -> gives e2 ctx v2 -> inert v2 -> r = msets [] [(k1, v1); (k2, v2)] -> gives (dictE [(k1, e1); (k2, e2)]) ctx (JMap r).
Proof.
  intros [[Hk1 Hk2]%andb_prop Hne]%andb_prop H1 I1 H2 I2 ->. apply (dict_gives [(k1, e1); (k2, e2)] ctx [v1; v2] HO).
  - apply NoDup_ListNoDup. constructor; [|constructor; [intros []|constructor]]. intros [E|[]]. cbn in E. subst k2. by rewrite String.eqb_refl in Hne.
  - apply List.Forall_cons; [by apply good_key_ok|]. apply List.Forall_cons; [by apply good_key_ok|apply List.Forall_nil].
  - apply Forall2_cons_2; [done|]. apply Forall2_cons_2; [done|]. apply Forall2_nil_2.
Qed.
Lemma three_gives k1 k2 k3 e1 e2 e3 ctx v1 v2 v3 r :
  good_key k1 && good_key k2 && good_key k3 && negb (String.eqb k1 k2) && negb (String.eqb k1 k3) && negb (String.eqb k2 k3) = true ->
  gives e1 ctx v1 -> inert v1 -> gives e2 ctx v2 -> inert v2 -> gives e3 ctx v3 -> inert v3 -> r = msets [] [(k1, v1); (k2, v2); (k3, v3)] ->
  gives (dictE [(k1, e1); (k2, e2); (k3, e3)]) ctx (JMap r).
Proof.
  intros [[[[[Hk1 Hk2]%andb_prop Hk3]%andb_prop N1]%andb_prop N2]%andb_prop N3]%andb_prop H1 I1 H2 I2 H3 I3 ->. apply (dict_gives [(k1, e1); (k2, e2); (k3, e3)] ctx [v1; v2; v3] HO).
  - apply NoDup_ListNoDup. constructor; [|constructor; [|constructor; [intros []|constructor]]].
    + intros [E|[E|[]]]; cbn in E; subst; [by rewrite String.eqb_refl in N1|by rewrite String.eqb_refl in N2].
    + intros [E|[]]; cbn in E; subst. by rewrite String.eqb_refl in N3.
  - repeat (apply List.Forall_cons; [by apply good_key_ok|]). apply List.Forall_nil.
  - repeat (apply Forall2_cons_2; [done|]). apply Forall2_nil_2.
Qed.
End dict.

Section configdep.
Context {FF : FloatFmt} {EE : ExprEnv}.
Hypothesis HP : reads_fields.
Hypothesis HO : is_order iterate.
Notation comb cm dp cd := (combination (map gvk_kind cd_sources) [cm; dp; cd]).

Lemma cd_join_gives cm dp cd : config_object cm -> config_object dp -> config_object cd -> get_kind cd = "ConfigDeployment" ->
  eval_doc cd_join (comb cm dp cd) = Some (JBool (cd_sel [cm; dp; cd])).
Proof.
  intros ((ns1 & n1 & A1 & A2 & A3 & A4) & _) ((ns2 & n2 & B1 & B2 & B3 & B4) & _) ((ns3 & n3 & C1 & C2 & C3 & C4) & _ & C5) HK.
  unfold eval_doc. assert (gives cd_join (Ctx (JMap (comb cm dp cd)) JNull) (JBool (cd_sel [cm; dp; cd]))) as ->; [|done].
  assert (HN : forall k, k = "configMap" \/ k = "deployment" -> is_str "@now" (at_ ["spec"; k] cd) = false).
  { intros k Hk. destruct (at_ ["spec"; k] cd) eqn:E; try done. eapply text_now, C5; done. }
  unfold cd_join, cd_sel. rewrite (str_at_is _ _ _ A1), (str_at_is _ _ _ A2), (str_at_is _ _ _ B2).
  apply and_gives. repeat (apply Forall2_cons_2; [apply eq_gives|]); [..|apply Forall2_nil_2].
  - by_path HP ["ConfigMap"; "metadata"; "name"]; change (is_str "@now" (at_ ["metadata"; "name"] cm) = false) || exact A2. rewrite A2. by apply text_now.
  - by_path HP ["ConfigDeployment"; "spec"; "configMap"]; [|reflexivity]. apply HN. by left.
  - by_path HP ["Deployment"; "metadata"; "name"]; change (is_str "@now" (at_ ["metadata"; "name"] dp) = false) || exact B2. rewrite B2. by apply text_now.
  - by_path HP ["ConfigDeployment"; "spec"; "deployment"]; [|reflexivity]. apply HN. by right.
  - by_path HP ["ConfigMap"; "metadata"; "namespace"]; change (is_str "@now" (at_ ["metadata"; "namespace"] cm) = false) || exact A1. rewrite A1. by apply text_now.
  - by_path HP ["Deployment"; "metadata"; "namespace"]; [|reflexivity]. change (is_str "@now" (at_ ["metadata"; "namespace"] dp) = false). rewrite B1. by apply text_now.
  - by_path HP ["ConfigMap"; "metadata"; "namespace"]; change (is_str "@now" (at_ ["metadata"; "namespace"] cm) = false) || exact A1. rewrite A1. by apply text_now.
  - by_path HP ["ConfigDeployment"; "metadata"; "namespace"]; [|reflexivity]. change (is_str "@now" (at_ ["metadata"; "namespace"] cd) = false). rewrite C1. by apply text_now.
Qed.
Lemma cd_project_gives cm dp cd : config_object cm -> config_object dp -> get_kind cm = "ConfigMap" ->
  eval_doc cd_project (comb cm dp cd) = Some (JMap (cd_pr [cm; dp; cd])).
Proof.
  intros (_ & A1 & _) ((ns2 & n2 & B1 & B2 & B3 & B4) & _) HK. destruct (A1 HK) as (v & Hv & Tv).
  unfold eval_doc. assert (gives cd_project (Ctx (JMap (comb cm dp cd)) JNull) (JMap (cd_pr [cm; dp; cd]))) as ->; [|done].
  unfold cd_project, cd_pr. rewrite (str_at_is _ _ _ B1), (str_at_is _ _ _ B2), (str_at_is _ _ _ Hv).
  apply (two_gives HO "metadata" "spec" _ _ _ (JMap [("name", JStr n2); ("namespace", JStr ns2)])
    (JMap [("template", JMap [("metadata", JMap [("annotations", JMap [("dcontroller.io/configmap-version", JStr v)])])])])); [reflexivity| |exact I| |exact I|reflexivity].
  - apply (two_gives HO "name" "namespace" _ _ _ (JStr n2) (JStr ns2)); [reflexivity| |by apply text_inert| |by apply text_inert|reflexivity].
    + by_path HP ["Deployment"; "metadata"; "name"]; change (is_str "@now" (at_ ["metadata"; "name"] dp) = false) || exact B2. rewrite B2. by apply text_now.
    + by_path HP ["Deployment"; "metadata"; "namespace"]; change (is_str "@now" (at_ ["metadata"; "namespace"] dp) = false) || exact B1. rewrite B1. by apply text_now.
  - apply (one_gives HO "template"); [reflexivity| |exact I]. apply (one_gives HO "metadata"); [reflexivity| |exact I]. apply (one_gives HO "annotations"); [reflexivity| |exact I].
    apply (one_gives HO "dcontroller.io/configmap-version"); [reflexivity| |by apply text_inert].
    by_path HP ["ConfigMap"; "metadata"; "resourceVersion"]; change (is_str "@now" (at_ ["metadata"; "resourceVersion"] cm) = false) || exact Hv. rewrite Hv. by apply text_now.
Qed.

Definition config_history (ds : list delta) : Prop := Forall (fun d => config_object (stripped (d_obj d))) ds.
Lemma config_named ds : config_history ds -> named_history ds.
Proof. intros H. eapply Forall_impl; [exact H|]. clear H. intros d ((ns & n & H) & _). eexists. by apply (located_id _ ns n). Qed.
Lemma config_in {ds c k d} : history_ok clean cd_sources ∅ ds -> config_history ds -> In d (of_kind (String c k) (after ds)) -> config_object d /\ get_kind d = String c k.
Proof. assert (String c k <> "") as Hk by done. intros HH HC Hd. destruct (of_kind_in _ _ _ _ Hk HH Hd) as (? & _ & x & Hx). split; [|done]. by eapply (after_all config_object). Qed.
Lemma cd_kinds : NoDup (map gvk_kind cd_sources).
Proof. apply NoDup_ListNoDup. repeat (constructor; [vm_compute; intuition discriminate|]). constructor. Qed.
Notation cd_combos w := (picks (map (fun s => of_kind (gvk_kind s) w) cd_sources)).
Lemma cd_combo w x : In x (cd_combos w) <-> exists cm dp cd, x = [cm; dp; cd] /\ In cm (of_kind "ConfigMap" w) /\ In dp (of_kind "Deployment" w) /\ In cd (of_kind "ConfigDeployment" w).
Proof.
  rewrite picks_in. cbn [map]. split.
  - intros E. apply Forall2_cons_inv_r in E as (cm & y & H1 & E & ->). apply Forall2_cons_inv_r in E as (dp & z & H2 & E & ->). apply Forall2_cons_inv_r in E as (cd & u & H3 & E & ->).
    apply Forall2_nil_inv_r in E as ->. by exists cm, dp, cd.
  - intros (cm & dp & cd & -> & H1 & H2 & H3). repeat (apply Forall2_cons_2; [done|]). apply Forall2_nil_2.
Qed.
Lemma cd_yields sortv ds R : history_ok clean cd_sources ∅ ds -> config_history ds ->
  yields sortv cd_sources [Stage KJoin cd_join; Stage KProject cd_project] (after ds) R -> Permutation (map cd_pr (List.filter cd_sel (cd_combos (after ds)))) R.
Proof.
  intros HH HC. apply join_project_is.
  - intros x Hx. apply cd_combo in Hx as (cm & dp & cd & -> & H1 & H2 & H3). destruct (config_in HH HC H1), (config_in HH HC H2), (config_in HH HC H3).
    by apply cd_join_gives.
  - intros x Hx _. apply cd_combo in Hx as (cm & dp & cd & -> & H1 & H2 & H3). destruct (config_in HH HC H1), (config_in HH HC H2).
    by apply cd_project_gives.
Qed.
(** What a selected combination says. *)
Lemma cd_selected cm dp cd : config_object cm -> config_object dp -> config_object cd -> get_kind cm = "ConfigMap" -> cd_sel [cm; dp; cd] = true ->
  exists ns x c n v, located cd ns x /\ located cm ns c /\ located dp ns n /\ at_ ["spec"; "configMap"] cd = JStr c /\ at_ ["spec"; "deployment"] cd = JStr n
    /\ at_ ["metadata"; "resourceVersion"] cm = JStr v /\ text v /\ cd_pr [cm; dp; cd] = cd_out ns n v.
Proof.
  intros ((ns1 & n1 & LA) & AV & _) ((ns2 & n2 & LB) & _) ((ns3 & n3 & LC) & _) HK H. destruct (AV HK) as (v & Hv & Tv).
  pose proof LA as (A1 & A2 & _). pose proof LB as (B1 & B2 & _). pose proof LC as (C1 & C2 & _).
  unfold cd_sel in H. rewrite (str_at_is _ _ _ A1), (str_at_is _ _ _ A2), (str_at_is _ _ _ B2), B1, C1 in H. cbn [forallb] in H. rewrite andb_true_r in H.
  apply andb_prop in H as [H1 H]. apply andb_prop in H as [H2 H]. apply andb_prop in H as [H3 H4].
  apply is_str_true in H1, H2, H3, H4. injection H3 as ->. injection H4 as ->.
  exists ns1, n3, n1, n2, v. split_and!; try done. unfold cd_pr. by rewrite (str_at_is _ _ _ B1), (str_at_is _ _ _ B2), (str_at_is _ _ _ Hv).
Qed.
Lemma cd_out_id ns n v : text n -> doc_id (cd_out ns n v) = Some (ns, n).
Proof. intros H. destruct n as [|c n]; [done|]. reflexivity. Qed.
Lemma cd_out_patch ns n v : text ns -> text n -> encapsulate deployment (cd_out ns n v) ns n = version_patch ns n v.
Proof. intros H1 H2. destruct n as [|c n]; [done|]. destruct ns as [|b ns]; [done|]. reflexivity. Qed.
Lemma cd_names sortv ds R : history_ok clean cd_sources ∅ ds -> config_history ds -> one_config (after ds) ->
  yields sortv cd_sources [Stage KJoin cd_join; Stage KProject cd_project] (after ds) R -> one_per_name R.
Proof.
  intros HH HC H1 HY. apply (cd_yields _ _ _ HH HC) in HY. eapply one_per_name_perm; [exact HY|]. pose proof (config_named _ HC) as HN.
  assert (HK : forall k, one_per_name (of_kind k (after ds))) by (intros k; by apply (kind_names cd_sources ds k HH cd_kinds)).
  split.
  - rewrite map_map. apply nodup_map_inj.
    + apply nodup_filter, picks_nodup. repeat (apply List.Forall_cons; [apply names_nodup, HK|]). apply List.Forall_nil.
    + intros x y Hx Hy. apply filter_In in Hx as [Hx Sx]. apply filter_In in Hy as [Hy Sy].
      apply cd_combo in Hx as (cm & dp & cd & -> & X1 & X2 & X3). apply cd_combo in Hy as (cm' & dp' & cd' & -> & Y1 & Y2 & Y3).
      destruct (config_in HH HC X1), (config_in HH HC X2), (config_in HH HC X3).
      destruct (config_in HH HC Y1), (config_in HH HC Y2), (config_in HH HC Y3).
      destruct (cd_selected cm dp cd) as (ns & x & c & n & v & L1 & L2 & L3 & S1 & S2 & _ & _ & E); [done..|].
      destruct (cd_selected cm' dp' cd') as (ns' & x' & c' & n' & v' & L1' & L2' & L3' & S1' & S2' & _ & _ & E'); [done..|].
      rewrite E, E'. rewrite (cd_out_id ns n v), (cd_out_id ns' n' v') by (apply L3 || apply L3'). intros [= <- <-].
      assert (cd = cd') as <- by (by eapply (H1 cd cd' ns x x' n)).
      assert (dp = dp') as <-. { apply (names_inj _ _ _ (HK "Deployment")); [done..|]. by rewrite (located_id _ _ _ L3), (located_id _ _ _ L3'). }
      assert (cm = cm') as <-; [|done]. apply (names_inj _ _ _ (HK "ConfigMap")); [done..|]. rewrite (located_id _ _ _ L2), (located_id _ _ _ L2'). congruence.
  - intros d Hd. apply in_map_iff in Hd as (x & <- & Hx). apply filter_In in Hx as [Hx Sx]. apply cd_combo in Hx as (cm & dp & cd & -> & X1 & X2 & X3).
    destruct (config_in HH HC X1), (config_in HH HC X2), (config_in HH HC X3).
    destruct (cd_selected cm dp cd) as (ns & x & c & n & v & L1 & L2 & L3 & S1 & S2 & _ & _ & E); [done..|].
    rewrite E. exists (ns, n). split; [apply cd_out_id, L3|]. destruct (HK "Deployment") as [_ HK2]. destruct (HK2 dp X2) as (i & Hi & Hp). rewrite (located_id _ _ _ L3) in Hi. by injection Hi as <-.
Qed.
Lemma configdep_holds sortv p pp o ds p' outs :
  fmt_ok -> fmt_inj -> env_clean -> unmarshal_pipeline configdep_json = Val p -> declare clean deployment cd_sources p = Some pp ->
  order_ok o -> history_ok clean cd_sources ∅ ds -> config_history ds -> (forall pre post, ds = (pre ++ post)%list -> one_config (after pre)) ->
  pipe_run clean sortv o 0 pp ds = (p', map Some outs) ->
  forall ns n m, apply_ops no_objects (concat outs) (ns, n) = Some m <->
    exists cd cm dp v, In cd (of_kind "ConfigDeployment" (after ds)) /\ In cm (of_kind "ConfigMap" (after ds)) /\ In dp (of_kind "Deployment" (after ds))
      /\ wants cd cm dp /\ located dp ns n /\ at_ ["metadata"; "resourceVersion"] cm = JStr v /\ m = version_patch ns n v.
Proof.
  intros F1 F2 HE HU HD Ho HH HC H1 HR. rewrite configdep_stages in HU. injection HU as <-.
  assert (HPre : forall pre post, ds = (pre ++ post)%list -> history_ok clean cd_sources ∅ pre /\ config_history pre).
  { intros pre post ->. apply history_app in HH as [HH _]. by apply Forall_app in HC as [HC _]. }
  destruct (C51_meaning_partial FF EE sortv deployment cd_sources [Stage KJoin cd_join; Stage KProject cd_project] pp o ds p' outs F1 F2) as (R & HY & HT); try done.
  - apply cd_kinds.
  - repeat (apply List.Forall_cons; [apply (C51_tidy _ _ HE); vm_compute; reflexivity|]). apply List.Forall_nil.
  - intros pre post R E HY. destruct (HPre _ _ E). eapply cd_names; [done..| |exact HY]. by eapply H1.
  - apply (cd_yields _ _ _ HH HC) in HY. intros ns n m. rewrite HT. clear HT. split.
    + intros (d & Hd & Hi & ->). apply (Permutation_in _ (Permutation_sym HY)) in Hd. apply in_map_iff in Hd as (x & <- & Hx). apply filter_In in Hx as [Hx Sx].
      apply cd_combo in Hx as (cm & dp & cd & -> & X1 & X2 & X3).
      destruct (config_in HH HC X1), (config_in HH HC X2), (config_in HH HC X3).
      destruct (cd_selected cm dp cd) as (ns' & x & c & n' & v & L1 & L2 & L3 & S1 & S2 & Hv & _ & E); [done..|]. rewrite E in *.
      rewrite (cd_out_id ns' n' v) in Hi by apply L3. injection Hi as -> ->. cbn [fst snd]. exists cd, cm, dp, v. split_and!; [done..| |done|done|].
      * by exists ns, x, c, n.
      * apply cd_out_patch; apply L3.
    + intros (cd & cm & dp & v & X3 & X1 & X2 & (ns' & x & c & n' & L1 & L2 & L3 & S1 & S2) & L & Hv & ->).
      assert (ns' = ns /\ n' = n) as [-> ->]. { destruct L as (E1 & E2 & _), L3 as (E3 & E4 & _). split; congruence. }
      assert (E : cd_pr [cm; dp; cd] = cd_out ns n v).
      { unfold cd_pr. destruct L3 as (E3 & E4 & _). by rewrite (str_at_is _ _ _ E3), (str_at_is _ _ _ E4), (str_at_is _ _ _ Hv). }
      exists (cd_out ns n v). split_and!; [|apply cd_out_id, L|symmetry; apply cd_out_patch; apply L].
      apply (Permutation_in _ HY). rewrite <-E. apply in_map, filter_In. split; [apply cd_combo; by exists cm, dp, cd|].
      unfold cd_sel. destruct L1 as (P1 & _), L2 as (P3 & P4 & _), L3 as (P5 & P6 & _). rewrite (str_at_is _ _ _ P3), (str_at_is _ _ _ P4), (str_at_is _ _ _ P6), S1, S2, P5, P1.
      cbn [forallb]. by rewrite !(proj2 (is_str_true _ _) eq_refl).
Qed.
End configdep.
