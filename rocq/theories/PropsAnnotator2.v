(** Property C77, continued: what the patches do to the pods. *)
From Verif Require Import WriterModel PipeJsonModel StageModel ExampleModel AnnotatorModel.
From Verif Require Import ZSetSpec OpsSpec GatherSpec ExecSpec JsonSpec CleanSpec PipelineSpec GroupSpec ExprSpec StageSpec ExampleSpec AnnotatorSpec ValueSpec ViewSpec WriterSpec AnnotatorSpec2.
From Verif Require Import JsonProofs ObjProofs PipeProofs3 PropsView PropsWriter ExampleProofs ExampleProofs2 AnnotatorProofs TestExpr TestPipe TestStage PropsPipeline PropsStage TestExample PropsExample PropsAnnotator PropsWriter.
#[local] Open Scope string_scope.

Ltac ns := intros; subst; rewrite ?not_elem_of_cons in *; intuition (first [discriminate|congruence|by eapply not_elem_of_nil]).
Lemma far_elsewhere k ps : elsewhere k ps -> far ps.
Proof.
  unfold elsewhere, far. destruct ps as [|[a|i] ps]; try done. destruct ps as [|[b|i] ps].
  - intros H. rewrite decide_False by ns. ns.
  - destruct ps as [|[c|i] ps]; (destruct (decide (a = "metadata")); [|done]); try (ns). destruct (decide (b = "annotations")) as [->|]; [|done]. intros _. ns.
  - intros H. rewrite decide_False by ns. ns.
Qed.
Lemma untouched_elsewhere ns n k v ps : elsewhere k ps -> untouched (JMap (annotation_patch ns n k v)) ps.
Proof.
  assert (T : forall a, a <> "metadata" -> a ∉ ["apiVersion"; "kind"] -> mget (annotation_patch ns n k v) a = None).
  { intros a Ha H. unfold annotation_patch. cbn [mget]. repeat (rewrite decide_False by ns). done. }
  assert (M : forall b, b ∉ ["annotations"; "name"; "namespace"] -> mget [("annotations", JMap [(k, JStr v)]); ("name", JStr n); ("namespace", JStr ns)] b = None).
  { intros b H. cbn [mget]. repeat (rewrite decide_False by ns). done. }
  assert (S : forall a ps, a <> "metadata" -> a ∉ ["apiVersion"; "kind"] -> untouched (JMap (annotation_patch ns n k v)) (Key a :: ps)) by (intros a qs H1 H2; cbn [untouched]; by rewrite (T a H1 H2)).
  assert (U : forall b ps, b ∉ ["annotations"; "name"; "namespace"] -> untouched (JMap (annotation_patch ns n k v)) (Key "metadata" :: Key b :: ps)).
  { intros b qs H. change (untouched (JMap [("annotations", JMap [(k, JStr v)]); ("name", JStr n); ("namespace", JStr ns)]) (Key b :: qs)). cbn [untouched]. by rewrite (M b H). }
  unfold elsewhere. destruct ps as [|[a|i] ps]; try done. destruct ps as [|[b|i] ps].
  - intros H. apply S; ns.
  - destruct ps as [|[c|i] ps]; (destruct (decide (a = "metadata")) as [->|]; [|by apply S]); try (intros; apply U; ns).
    destruct (decide (b = "annotations")) as [->|]; [|intros; apply U; ns]. intros H. change (untouched (JMap [(k, JStr v)]) (Key c :: ps)). cbn [untouched mget]. by rewrite decide_False.
  - intros H. apply S; ns.
Qed.
Lemma patch_owf ns n k v : owf (annotation_patch ns n k v).
Proof. unfold annotation_patch. repeat (constructor; try done). Qed.

(** The write of such a patch to the pod in the cluster sets the annotation and leaves
    everything else alone, in the pod and in all other objects.
    Not covered: an annotations field that is no map loses what it was; the cache is up
    to date and nobody else writes (C33 and C34 for these cases). *)
Theorem C77_written_partial : forall hash has_status unconditional s t ns n k v orig old,
  cluster_ok hash s -> upsert t -> text n -> PipelineSpec.plain (ns, n) ->
  let x := (pod_kind, (ns, n)) in up_to_date s x -> fresh s x orig -> stored s x = Some old ->
  exists s' m', target_write hash has_status unconditional Patcher pod_kind s [] (Delta t (annotation_patch ns n k v)) orig = (s', None)
    /\ cluster_ok hash s' /\ stored s' x = Some m' /\ source_id m' = x /\ frame s s' x
    /\ ValueSpec.at_path (JMap m') [Key "metadata"; Key "annotations"; Key k] = Some (JStr v)
    /\ forall ps, elsewhere k ps -> ValueSpec.at_path (JMap m') ps = ValueSpec.at_path (JMap old) ps.
Proof.
  intros hash has_status uncond s t ns n k v orig old Hs Ht Hn Hp x Hu Hf Ho.
  assert (Ei : obj_id (annotation_patch ns n k v) = (ns, n)) by (unfold annotation_patch; by destruct n).
  destruct (C34_patch_partial hash has_status uncond pod_kind s (Delta t (annotation_patch ns n k v)) orig old) as (s' & m' & A1 & A2 & A3 & A4 & A5 & A6 & A7 & _); cbn [d_obj d_type]; rewrite ?Ei; try done.
  - split_and!; [apply patch_owf|by rewrite Ei| |done|done]. destruct n; done.
  - cbn [d_obj] in *. rewrite Ei in *. exists s', m'. split_and!; try done.
    + apply A6; [|done|]. { unfold far. rewrite decide_True by done. repeat (apply not_elem_of_cons; split; [done|]). apply not_elem_of_nil. }
      change (ValueSpec.at_path (JMap [(k, JStr v)]) [Key k] = Some (JStr v)). cbn [ValueSpec.at_path child mget]. by rewrite decide_True.
    + intros ps Hps. apply A7; [by eapply far_elsewhere|by apply untouched_elsewhere].
Qed.
Print Assumptions C77_written_partial.

Lemma stripped_get m a : a ∉ ["metadata"; "apiVersion"; "kind"] -> mget (stripped m) a = mget m a.
Proof. intros H. unfold stripped. rewrite remove_uid_get by ns. apply copy_get; ns. Qed.
Lemma at_meta m f : nested_str m ["metadata"; f] <> EmptyString -> at_ ["metadata"; f] m = JStr (nested_str m ["metadata"; f]).
Proof.
  unfold nested_str. cbn [nested_get ExampleSpec.at_path]. destruct (mget m "metadata") as [[]|]; try done. by destruct (mget m0 f) as [[]|].
Qed.
Lemma located_id m ns n : obj_id m = (ns, n) -> text ns -> text n -> located m ns n.
Proof.
  unfold obj_id. intros [= E1 E2] T1 T2. unfold get_namespace, get_name in *. split_and!; try done.
  - rewrite <-E1. apply at_meta. rewrite E1. by intros ->.
  - rewrite <-E2. apply at_meta. rewrite E2. by intros ->.
Qed.
Lemma spec_at m m' l : ValueSpec.at_path (JMap m') [Key "spec"; Key l] = ValueSpec.at_path (JMap m) [Key "spec"; Key l] -> at_ ["spec"; l] (stripped m') = at_ ["spec"; l] m.
Proof.
  cbn [ExampleSpec.at_path ValueSpec.at_path child]. rewrite stripped_get by ns. intros E.
  destruct (mget m' "spec") as [v'|], (mget m "spec") as [v|]; cbn [child] in E; [destruct v', v|destruct v'|destruct v|]; cbn [child] in E; repeat match goal with |- context [mget ?x l] => destruct (mget x l) | H : context [mget ?x l] |- _ => destruct (mget x l) end; congruence.
Qed.

(** The operator does not chase its own tail: when its patch has been written to a pod
    with as many containers as the operator has seen, the event that tells it about the
    pod as it is now makes it write nothing. *)
Theorem C77_circle_partial : forall (FF : FloatFmt) (EE : ExprEnv) sortv p pp o ds hash has_status unconditional s s' t ns n orig old d c,
  reads_fields -> is_order iterate -> (forall l, Permutation (sortv l) l) -> fmt_ok -> fmt_inj -> env_clean ->
  unmarshal_pipeline count_json = Val p -> declare clean pod_kind [pod_kind] p = Some pp ->
  order_ok o -> history_ok clean [pod_kind] ∅ ds -> each counted_pod ds ->
  In d (of_kind "Pod" (after ds)) -> located d ns n -> has_containers d c ->
  cluster_ok hash s -> upsert t -> PipelineSpec.plain (ns, n) ->
  let x := (pod_kind, (ns, n)) in up_to_date s x -> fresh s x orig -> stored s x = Some old -> has_containers old c ->
  target_write hash has_status unconditional Patcher pod_kind s [] (Delta t (annotation_patch ns n "dcontroller.io/container-num" (enc_int (Z.of_nat c)))) orig = (s', None) ->
  exists m', stored s' x = Some m' /\
    (event_ok clean [pod_kind] (after ds) (Delta Updated m') ->
     exists p' outs, length outs = length ds /\ pipe_run clean sortv o 0 pp (ds ++ [Delta Updated m']) = (p', map Some (outs ++ [[]]))).
Proof.
  intros FF EE sortv p pp o ds hash has_status uncond s s' t ns n orig old d c HP HO HS F1 F2 HE HU HD Ho HH HC Hd L H Hs Ht Hp x Hu Hf E Hc W.
  destruct (C77_written_partial hash has_status uncond s t ns n "dcontroller.io/container-num" (enc_int (Z.of_nat c)) orig old Hs Ht) as (s1 & m' & W1 & _ & E1 & I1 & _ & _ & K); try done; [apply L|].
  rewrite W in W1. injection W1 as <-. exists m'. split; [exact E1|]. intros Hev. fold x in I1.
  assert (L' : located (stripped m') ns n). { apply located_id; [|apply L|apply L]. rewrite stripped_id. exact (f_equal snd I1). }
  assert (H' : has_containers (stripped m') c).
  { destruct Hc as (l & Hl & Hn). exists l. split; [|done]. rewrite <-Hl. apply spec_at. apply K. unfold elsewhere. rewrite decide_False by done. ns. }
  apply (C77_settles_partial FF EE sortv p pp o ds (Delta Updated m') d ns n c); try done.
  - apply PipeProofs.history_app. split; [done|]. split; [exact Hev|exact I].
  - apply Forall_app. split; [done|]. apply List.Forall_cons; [|apply List.Forall_nil]. split; [by exists ns, n|by exists c].
Qed.
Print Assumptions C77_circle_partial.

(** *** Examples *)
#[local] Existing Instance ex_env.
Definition web_pod : jobj := a_pod "web" [("team", JStr "a")] ["nginx"; "proxy"].
Definition web_key : gvk * oname := (pod_kind, ("default", "web")).
Definition web_cluster : cluster := put pod_kind nothing web_pod.
Definition web_old : jobj :=
  [("apiVersion", JStr "v1"); ("kind", JStr "Pod");
   ("metadata", JMap [("annotations", JMap [("team", JStr "a")]); ("name", JStr "web"); ("namespace", JStr "default"); ("resourceVersion", JStr "0"); ("uid", JStr "0")]);
   ("spec", JMap [("containers", JList [a_container "nginx"; a_container "proxy"])])].
Definition web_after : cluster := (target_write h0 yes yes Patcher pod_kind web_cluster [] (Delta Upserted (annotation_patch "default" "web" "dcontroller.io/container-num" "2")) None).1.
Definition web_new : jobj :=
  [("apiVersion", JStr "v1"); ("kind", JStr "Pod");
   ("metadata", JMap [("annotations", JMap [("dcontroller.io/container-num", JStr "2"); ("team", JStr "a")]); ("name", JStr "web"); ("namespace", JStr "default"); ("resourceVersion", JStr "1"); ("uid", JStr "0")]);
   ("spec", JMap [("containers", JList [a_container "nginx"; a_container "proxy"])])].
(** A pod with another annotation: it keeps it, and the event that follows is one that
    [C77_circle_partial] is about. *)
Example ex_C77_written :
  cluster_ok h0 web_cluster /\ up_to_date web_cluster web_key /\ fresh web_cluster web_key None /\ stored web_cluster web_key = Some web_old
  /\ PipelineSpec.plain ("default", "web") /\ has_containers web_old 2
  /\ history_ok clean [pod_kind] ∅ [Delta Added web_old] /\ each counted_pod [Delta Added web_old]
  /\ stored web_after web_key = Some web_new
  /\ elsewhere "dcontroller.io/container-num" [Key "metadata"; Key "annotations"; Key "team"]
  /\ event_ok clean [pod_kind] (after [Delta Added web_old]) (Delta Updated web_new)
  /\ sent count_json [Delta Added web_old; Delta Updated web_new] = Some [Some [(Upserted, "web")]; Some []].
Proof.
  assert (T : target_ok pod_kind web_pod) by (split_and!; [apply owf_ex; vm_compute; reflexivity|done..]).
  split_and!.
  - apply put_ok; [done|apply nothing_ok|exact T|done].
  - vm_compute. reflexivity.
  - done.
  - vm_compute. reflexivity.
  - done.
  - eexists. split; vm_compute; reflexivity.
  - split; [an_event|exact I].
  - apply List.Forall_cons; [split; [eexists _, _; is_located|eexists _, _; split; vm_compute; reflexivity]|]. apply List.Forall_nil.
  - vm_compute. reflexivity.
  - unfold elsewhere. rewrite decide_True, decide_True by done. done.
  - an_event.
  - vm_compute. reflexivity.
Qed.
