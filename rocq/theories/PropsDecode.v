(** Property C41, continued: which declarations of pipelines are accepted. *)
From Verif Require Import JsonModel PipeJsonModel DecodeSpec.
#[local] Open Scope string_scope.

Lemma kind_in s k : kind_of_name s = Some k <-> In (s, k) operators.
Proof.
  unfold kind_of_name, operators. split.
  - intros H. repeat (case_decide; [subst; injection H as <-; cbn; tauto|]). done.
  - intros H. cbn in H. repeat (destruct H as [H|H]; [injection H as <- <-; reflexivity|]). done.
Qed.
Section decode.
Context {FF : FloatFmt} {EE : ExprEnv}.
Lemma stage_is j s : unmarshal_stage j = Val s <-> exists k v, j = JMap [(k, v)] /\ In (k, st_kind s) operators /\ unmarshal v = Val (st_expr s).
Proof.
  split.
  - unfold unmarshal_stage. destruct j as [| | | | | |m]; try done. destruct m as [|[k v] m]; [done|]. intros H.
    destruct (unmarshal v) as [e| |] eqn:Ev; try done. cbn [rbind] in H. destruct m as [|[k' v'] m].
    + cbn [rbind] in H. destruct (kind_of_name k) as [kd|] eqn:Ek; [|done]. injection H as <-. exists k, v. split_and!; [done|by apply kind_in|done].
    + destruct (unmarshal v') as [e'| |]; try done. cbn [rbind] in H.
      match type of H with context [rbind (?f m) _] => destruct (f m) as [es| |] end; done.
  - intros (k & v & -> & Hk & Hv). apply kind_in in Hk. unfold unmarshal_stage. rewrite Hv. cbn [rbind]. rewrite Hk. by destruct s.
Qed.
Lemma stages_are l : forall p, unmarshal_stages l = Val p <-> Forall2 (fun j s => unmarshal_stage j = Val s) l p.
Proof.
  induction l as [|j l IH]; intros p; cbn [unmarshal_stages].
  - split; [intros [= <-]; constructor|]. by intros ->%Forall2_nil_inv_l.
  - split.
    + intros H. destruct (unmarshal_stage j) as [s| |] eqn:Es; try done. cbn [rbind] in H. destruct (unmarshal_stages l) as [q| |] eqn:El; try done. injection H as <-.
      constructor; [done|]. by apply IH.
    + intros (s & q & Es & F & ->)%Forall2_cons_inv_l. rewrite Es. cbn [rbind]. apply IH in F. by rewrite F.
Qed.
End decode.

(** A declaration is accepted exactly if it is a list of stages, or a single one, or
    nothing, and each stage is a map with one key, the name of an operator, and an
    expression that is accepted; the pipeline has these stages in this order. *)
Theorem C41_accepts : forall (FF : FloatFmt) (EE : ExprEnv) j p,
  unmarshal_pipeline j = Val p <->
  Forall2 (fun j s => exists k v, j = JMap [(k, v)] /\ In (k, st_kind s) operators /\ unmarshal v = Val (st_expr s)) (parts j) p.
Proof.
  intros FF EE j p.
  assert (E : unmarshal_pipeline j = Val p <-> Forall2 (fun j s => unmarshal_stage j = Val s) (parts j) p).
  { rewrite <-stages_are. destruct j; try done; cbn [unmarshal_pipeline parts unmarshal_stages]; by destruct (unmarshal_stage _). }
  rewrite E. split; intros F; (eapply Forall2_impl; [exact F|]); intros j' s; apply stage_is.
Qed.
Print Assumptions C41_accepts.

From Verif Require Import StageModel TestExpr TestPipe TestStage TestExample.
#[local] Existing Instance ex_env.
Example ex_C41_accepts :
  (exists p, unmarshal_pipeline (JList [JMap [("@demux", JStr "$.spec")]; JMap [("@select", JBool true)]]) = Val p /\ map st_kind p = [KUnwind; KSelect])
  /\ unmarshal_pipeline JNull = Val [] /\ unmarshal_pipeline (JMap [("@gather", JStr "a"); ("@project", JStr "b")]) = Err
  /\ unmarshal_pipeline (JMap [("@filter", JStr "a")]) = Err.
Proof. split_and!; [|vm_compute; reflexivity..]. eexists. split; vm_compute; reflexivity. Qed.
