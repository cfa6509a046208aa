(** The pipelines of the examples never fail. *)
From Verif Require Import JsonModel ObjModel ZSetModel OpsModel ExecModel PipelineModel ValueModel PipeJsonModel StageModel ExampleModel.
From Verif Require Import ExprSpec ZSetSpec OpsSpec ExecSpec JsonSpec CleanSpec PipelineSpec StageSpec StageRunSpec ExampleSpec.
From Verif Require Import JsonProofs ObjProofs CleanProofs ExprProofs2 ExprProofs3 ConvertProofs PipeProofs PipeProofs2 PipeProofs3 StageNames StageProofs StageClean StageRunProofs DeclProofs PropsExpr PropsStage PropsStageRun ExampleProofs ExampleProofs2 ExampleProofs3 ExampleProofs4.
#[local] Open Scope string_scope.

Lemma gvk_kind_get m : gvk_kind (get_gvk m) <> "" -> get_kind m = gvk_kind (get_gvk m).
Proof. unfold get_gvk. by destruct (parse_gv _) as [[]|]. Qed.
Lemma each_on `{FloatFmt} (C : jobj -> Prop) sources ds : Forall (fun s => gvk_kind s <> "") sources -> forall w, history_ok clean sources w ds -> Forall (fun d => C (stripped (d_obj d))) ds ->
  events_on (fun k d => C d /\ get_kind d = k) ds.
Proof.
  intros HS. induction ds as [|d ds IH]; intros w HH HC; [apply List.Forall_nil|]. destruct HH as [He HH]. apply Forall_cons in HC as [Hd HC]. apply List.Forall_cons; [|by eapply IH].
  split; [done|]. destruct He as (_ & _ & _ & Hin & _). rewrite List.Forall_forall in HS. specialize (HS _ ltac:(apply elem_of_list_In; exact Hin)).
  rewrite (gvk_kind_get (d_obj d)) by done. rewrite gvk_kind_get; by rewrite stripped_gvk.
Qed.

Section runs.
Context {FF : FloatFmt} {EE : ExprEnv}.
Hypothesis HP : reads_fields.
Hypothesis HO : is_order iterate.
Hypothesis HE : env_clean.
Notation yes := (fun _ : jobj => True).

Definition cd_both (d : jobj) : Prop := exists cm dp cd, d = combination (map gvk_kind cd_sources) [cm; dp; cd] /\ config_object cm /\ config_object dp /\ get_kind cm = "ConfigMap".
Lemma cd_runs : runs_on cd_sources (fun k d => config_object d /\ get_kind d = k) [Stage KJoin cd_join; Stage KProject cd_project] yes.
Proof.
  exists cd_both. split.
  - intros ds F. apply Forall2_cons_inv_l in F as (cm & y & (_ & X1 & K1) & F & ->). apply Forall2_cons_inv_l in F as (dp & z & (_ & X2 & K2) & F & ->). apply Forall2_cons_inv_l in F as (cd & u & (_ & X3 & K3) & F & ->).
    apply Forall2_nil_inv_l in F as ->. eexists. split; [by apply cd_join_gives|]. intros _. by exists cm, dp, cd.
  - exists yes. split; [|done]. intros d [Hc (cm & dp & cd & -> & X1 & X2 & K1)]. exists (cd_pr [cm; dp; cd]).
    assert (projected cd_project (combination (map gvk_kind cd_sources) [cm; dp; cd]) (cd_pr [cm; dp; cd])) as HPr by (left; by apply cd_project_gives).
    split; [exact HPr|]. split; [|done]. by apply (C51_tidy _ _ HE (Stage KProject cd_project) ltac:(vm_compute; reflexivity) _ _ Hc HPr).
Qed.
Definition hv_both (d : jobj) : Prop := exists hv sv, d = combination (map gvk_kind hv_sources) [hv; sv] /\ health_object hv /\ health_object sv /\ get_kind hv = "HealthView".
Lemma hv_runs : runs_on hv_sources (fun k d => health_object d /\ get_kind d = k) [Stage KJoin hv_join; Stage KProject hv_project] yes.
Proof.
  exists hv_both. split.
  - intros ds F. apply Forall2_cons_inv_l in F as (hv & y & (_ & X1 & K1) & F & ->). apply Forall2_cons_inv_l in F as (sv & z & (_ & X2 & K2) & F & ->).
    apply Forall2_nil_inv_l in F as ->. eexists. split; [by apply hv_join_gives|]. intros _. by exists hv, sv.
  - exists yes. split; [|done]. intros d [Hc (hv & sv & -> & X1 & X2 & K1)]. exists (hv_pr [hv; sv]).
    assert (projected hv_project (combination (map gvk_kind hv_sources) [hv; sv]) (hv_pr [hv; sv])) as HPr by (left; by apply hv_project_gives).
    split; [exact HPr|]. split; [|done]. by apply (C51_tidy _ _ HE (Stage KProject hv_project) ltac:(vm_compute; reflexivity) _ _ Hc HPr).
Qed.
Hypothesis HQ : reads_pods.
Lemma pd_runs : runs_on [pod_kind] (fun k d => monitored d /\ get_kind d = k) [Stage KProject pd_project; Stage KGather (listE [pd_key; strE "$.pods"])] yes.
Proof.
  exists pod_kind. split; [done|]. exists (fun r => exists d, clean d = true /\ monitored d /\ r = pd_pr d). split.
  - intros d [Hc [M _]]. exists (pd_pr d). assert (projected pd_project d (pd_pr d)) as HPr by (left; by apply pd_project_gives).
    split; [exact HPr|]. split; [|by exists d]. by apply (C51_tidy _ _ HE (Stage KProject pd_project) ltac:(vm_compute; reflexivity) _ _ Hc HPr).
  - exists yes. split; [|done]. exists pd_key, (strE "$.pods"). split; [done|]. split.
    + intros r [_ (d & Hc & M & ->)]. destruct (pd_key_gives HP d M) as [E1 E2]. unfold gather_key in E1. rewrite E2 in E1. destruct (eval_doc pd_key (pd_pr d)) as [x|]; [|done].
      exists x, (pod_status d). split_and!; [done|done|]. intros N. destruct x; try done; by rewrite E1.
    + intros r vs [Hr (d & Hc & M & ->)] HV. exists "$.pods", (mset (pd_pr d) "pods" (JList vs)). destruct HQ as (_ & _ & Q3). split_and!; [done|apply Q3|split; [|done]].
      apply (set_raw_clean HE "$.pods" (JList vs) (pd_pr d)); [done|..|done|apply Q3]. apply clean_list. eapply Forall_impl; [exact HV|]. intros y (d' & (Hc' & _) & Hy). by apply (eval_doc_clean HE (strE "$.pods") d').
Qed.

Lemma configdep_runs sortv p pp o ds : (forall l, Permutation (sortv l) l) ->
  fmt_ok -> fmt_inj -> unmarshal_pipeline configdep_json = Val p -> declare clean deployment cd_sources p = Some pp ->
  order_ok o -> history_ok clean cd_sources ∅ ds -> config_history ds -> (forall pre post, ds = (pre ++ post)%list -> one_config (after pre)) ->
  exists p' outs, pipe_run clean sortv o 0 pp ds = (p', map Some outs).
Proof.
  intros HS F1 F2 HU HD Ho HH HC H1. rewrite configdep_stages in HU. injection HU as <-.
  destruct (C51_runs_partial FF EE sortv deployment cd_sources [Stage KJoin cd_join; Stage KProject cd_project] pp o ds (fun k d => config_object d /\ get_kind d = k) yes F1 F2 HS) as (p' & outs & R & HR & _); try done.
  - apply cd_kinds.
  - repeat (apply List.Forall_cons; [vm_compute; reflexivity|]). apply List.Forall_nil.
  - repeat (apply List.Forall_cons; [apply (C51_tidy _ _ HE); vm_compute; reflexivity|]). apply List.Forall_nil.
  - eapply each_on; [|exact HH|exact HC]. repeat (apply List.Forall_cons; [done|]). apply List.Forall_nil.
  - apply cd_runs.
  - intros pre post R -> HY. apply history_app in HH as [HH _]. apply Forall_app in HC as [HC _]. eapply (cd_names HP HO); [exact HH|exact HC| |exact HY]. by eapply H1.
  - by exists p', outs.
Qed.
Lemma health_runs sortv p pp o ds : (forall l, Permutation (sortv l) l) ->
  fmt_ok -> fmt_inj -> unmarshal_pipeline health_json = Val p -> declare clean service hv_sources p = Some pp ->
  order_ok o -> history_ok clean hv_sources ∅ ds -> health_history ds -> exists p' outs, pipe_run clean sortv o 0 pp ds = (p', map Some outs).
Proof.
  intros HS F1 F2 HU HD Ho HH HC. rewrite health_stages in HU. injection HU as <-.
  destruct (C51_runs_partial FF EE sortv service hv_sources [Stage KJoin hv_join; Stage KProject hv_project] pp o ds (fun k d => health_object d /\ get_kind d = k) yes F1 F2 HS) as (p' & outs & R & HR & _); try done.
  - apply hv_kinds.
  - repeat (apply List.Forall_cons; [vm_compute; reflexivity|]). apply List.Forall_nil.
  - repeat (apply List.Forall_cons; [apply (C51_tidy _ _ HE); vm_compute; reflexivity|]). apply List.Forall_nil.
  - eapply each_on; [|exact HH|exact HC]. repeat (apply List.Forall_cons; [done|]). apply List.Forall_nil.
  - apply hv_runs.
  - intros pre post R -> HY. apply history_app in HH as [HH _]. apply Forall_app in HC as [HC _]. by eapply (hv_names HP HO).
  - by exists p', outs.
Qed.
Lemma pods_runs sortv p pp o ds : (forall l, Permutation (sortv l) l) ->
  fmt_ok -> fmt_inj -> unmarshal_pipeline pods_json = Val p -> declare clean health_view [pod_kind] p = Some pp ->
  order_ok o -> history_ok clean [pod_kind] ∅ ds -> pods_history ds -> (forall pre post, ds = (pre ++ post)%list -> splits (of_kind "Pod" (after pre))) ->
  exists p' outs, pipe_run clean sortv o 0 pp ds = (p', map Some outs).
Proof.
  intros HS F1 F2 HU HD Ho HH HC HSp. rewrite pods_stages in HU. injection HU as <-.
  destruct (C51_runs_partial FF EE sortv health_view [pod_kind] [Stage KProject pd_project; Stage KGather (listE [pd_key; strE "$.pods"])] pp o ds (fun k d => monitored d /\ get_kind d = k) yes F1 F2 HS) as (p' & outs & R & HR & _); try done.
  - apply NoDup_singleton.
  - repeat (apply List.Forall_cons; [vm_compute; reflexivity|]). apply List.Forall_nil.
  - repeat (apply List.Forall_cons; [apply (C51_tidy _ _ HE); vm_compute; reflexivity|]). apply List.Forall_nil.
  - eapply each_on; [|exact HH|exact HC]. repeat (apply List.Forall_cons; [done|]). apply List.Forall_nil.
  - apply pd_runs.
  - intros pre post R -> HY. apply history_app in HH as [HH _]. apply Forall_app in HC as [HC _]. eapply (pd_names HP HQ HO sortv HS); [exact HH|exact HC| |exact HY]. by eapply HSp.
  - by exists p', outs.
Qed.
End runs.
