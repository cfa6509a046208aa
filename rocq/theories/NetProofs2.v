(** Proofs about controllers that work together: what a pipeline emits, and histories. *)
From Verif Require Import NetModel ZSetSpec OpsSpec GatherSpec ExecSpec JsonSpec CleanSpec PipelineSpec GroupSpec ValueSpec ViewSpec WriterSpec NetSpec.
From Verif Require Import StageSpec JsonProofs CleanProofs StageClean ZSetProofs ZSetProofs2 ReconcileProofs ObjProofs ConvertProofs TargetProofs PipeProofs PipeProofs2 PipeProofs3 PipeProofs4 RetryProofs.

Section ops.
Context {FF : FloatFmt}.
#[local] Hint Extern 0 Docs => exact (json_docs_on clean) : typeclass_instances.
Variable sortv : list json -> list json.
#[local] Notation xs := (@exec_scratch (json_docs_on clean) sortv).

(** An operation as pipelines emit them *)
Definition emitted (target : gvk) (d : delta) : Prop :=
  (d_type d = Upserted \/ d_type d = Deleted)
  /\ exists a i, clean a = true /\ doc_id a = Some i /\ plain i /\ d_obj d = encapsulate target a i.1 i.2.

Lemma action_in tgt i ds d : action (ops_of tgt i ds) = Some d -> (d_type d = Upserted \/ d_type d = Deleted) /\ exists d', In d' ds /\ d_obj d = d_obj d'.
Proof.
  rewrite action_expected. unfold expected_op. intros E.
  assert (A : forall a, last (adds_of i ds) = Some a -> In (Delta Added a) ds).
  { intros a Ha. apply last_In in Ha. by apply in_adds in Ha as [? _]. }
  assert (D : forall a l, dels_of i ds = a :: l -> In (Delta Deleted a) ds).
  { intros a l Ha. assert (Hin : In a (dels_of i ds)) by (rewrite Ha; by left). by apply in_dels in Hin as [? _]. }
  destruct (adds_of i ds) as [|a l], (dels_of i ds) as [|b l'], (held tgt i) as [old|]; try done.
  all: first [apply fmap_Some in E as (a' & Ea & ->); split; [by left|]; exists (Delta Added a'); split; [by apply A|done]
             |injection E as <-; split; [by right|]; eexists; split; [by eapply D|done]].
Qed.
Lemma tsteps_emitted target (Hex : exact clean) (Hg : gvk_ok target) ys : forall tgt outs tgt' B0,
  tsteps clean target tgt ys outs tgt' -> Forall zwf ys -> zwf B0 -> functional clean B0 ->
  (forall n, (n <= length ys)%nat -> exists B : @zset (json_docs_on clean), zwf B /\ functional clean B /\ forall k : string, zcount B k = zcount B0 k + total (take n ys) k) ->
  Forall (emitted target) (concat outs).
Proof.
  induction ys as [|y ys IH]; intros tgt outs tgt' B0 H Wy W0 F0 HB; inversion H; subst; clear H; [constructor|].
  apply Forall_cons in Wy as [Wy Wys]. destruct (HB 1%nat) as (B1 & W1 & F1 & C1); [simpl; lia|]. unfold total in C1. simpl in C1.
  cbn [concat]. apply Forall_app. split.
  - destruct (step_total clean target B0 B1 y tgt o1 o2) as (ds' & tgt'' & out' & E1 & _ & R); auto; [intros k; rewrite C1; lia|].
    match goal with E : convert_zset _ _ _ _ = Some ds |- _ => rewrite E in E1; injection E1 as <- end.
    match goal with E : reconcile _ _ _ ds = _ |- _ => rename E into Er end.
    destruct (reconcile_ok clean o2 tgt ds) as (tgt3 & out3 & E3 & _ & _ & A & Pl & _); [done..|]. rewrite Er in E3. injection E3 as <- <-.
    apply Forall_forall. intros d Hd. apply elem_of_list_In in Hd. destruct (proj1 (A (obj_id (d_obj d)) d (Pl d Hd)) (conj Hd eq_refl)) as [_ Ac].
    destruct (action_in _ _ _ _ Ac) as [T (d' & Hd' & Eo)]. split; [done|].
    match goal with E : convert_zset _ _ _ _ = Some ds |- _ => destruct (proj1 (convert_zset_in clean target o1 y ds ltac:(done) Wy E d') Hd') as (k & a & i & [Ha Hi] & ->) end.
    destruct (zwf_doc clean _ _ _ Wy Ha) as [Hk _]. exists a, i. cbn [d_obj] in Eo.
    assert (Ca : clean a = true). { destruct (clean a) eqn:Ca; [done|]. exfalso. change ((if clean a then enc (JMap a) else None) = Some k) in Hk. by rewrite Ca in Hk. }
    assert (Ei : obj_id (d_obj d) = i). { rewrite Eo. destruct (encapsulate_ok target a i) as [-> _]; [by apply clean_owf|done..]. }
    split_and!; [done|done| |done]. rewrite <- Ei. by apply Pl.
  - eapply (IH tgt1 outs0 tgt' B1); eauto. intros n Hn. destruct (HB (S n)) as (Bn & Wn & Fn & Cn); [simpl; lia|]. exists Bn. split_and!; [done|done|].
    intros k. rewrite Cn, C1. unfold total. simpl. lia.
Qed.
Lemma run_emitted target sources join ps g p o ds p' outs :
  exact clean -> gvk_ok target -> sources <> [] -> NoDup (map gvk_kind sources) ->
  forallb user_op ps = true -> Forall ExecSpec.op_ok ps -> (forall jev, join = Some jev -> jev_ok jev) ->
  pipe_new clean target sources join ps = Some p -> pipeline_graph (map gvk_kind sources) join ps = Some g ->
  order_ok o -> history_ok clean sources ∅ ds ->
  pipe_run clean sortv o 0 p ds = (p', map Some outs) ->
  (forall pre post acc B, ds = pre ++ post -> inputs_of clean (after pre) (map gvk_kind sources) acc -> xs g acc B -> functional clean B) ->
  Forall (emitted target) (concat outs).
Proof.
  intros Hex Hg Hs ND Hu Hok Hj Hp Hgr Ho HH R HF.
  destruct (pipe_prefixes clean sortv target sources join ps g p o ds p' outs) as (ys & T & Ly & HP); auto.
  destruct (HP (length ds)) as (acc & B & Ha & HB & TB & Wy); [done|]. rewrite <-Ly, firstn_all in Wy.
  assert (E0 : forall k : string, docs (@zempty (json_docs_on clean)) !! k = None) by (intros; apply lookup_empty).
  assert (F0 : functional clean zempty). { split; [intros k d Hd|intros k1 k2 d1 d2 i Hd]; by rewrite E0 in Hd. }
  eapply (tsteps_emitted target Hex Hg ys ∅ outs (p_tgt clean p') zempty); auto using wf_empty.
  intros n Hn. destruct (HP n) as (accn & Bn & Han & HBn & TBn & _); [lia|]. exists Bn. split_and!; [apply TBn| |].
  - eapply (HF (take n ds) (drop n ds)); [by rewrite take_drop|done|done].
  - intros k. rewrite zcount_empty. apply TBn.
Qed.
End ops.
