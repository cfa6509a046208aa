(** Property C51: a declared pipeline keeps its target equal to what the
    declaration means for the current source objects. *)
From Verif Require Import JsonModel ObjModel ZSetModel OpsModel ExecModel PipelineModel ValueModel PipeJsonModel StageModel.
From Verif Require Import ExprSpec ZSetSpec OpsSpec ExecSpec JsonSpec CleanSpec PipelineSpec StageSpec ZSetProofs2 PipeProofs2 StageProofs StageNames StageClean TestExpr TestPipe TestStage PropsPipeline.
#[local] Open Scope Z_scope.

(** After every history of source events that the pipeline processes, the target
    holds one object for each object that the stages yield for the current source
    objects, and nothing else.  [yields] knows nothing of deltas, Z-sets or
    incremental evaluation.
    Missing from the full statement: the stages must yield at most one object for
    each name (see C20 for what happens otherwise), stay within clean documents
    ([C51_tidy] gives a test) and not fail. *)
Theorem C51_meaning_partial : forall (FF : FloatFmt) (EE : ExprEnv) sortv target sources p pp o ds p' outs,
  fmt_ok -> fmt_inj -> gvk_ok target -> sources <> [] -> NoDup (map gvk_kind sources) ->
  Forall stage_clean p -> declare clean target sources p = Some pp -> order_ok o -> history_ok clean sources ∅ ds ->
  pipe_run clean sortv o 0 pp ds = (p', map Some outs) ->
  (forall pre post R, ds = pre ++ post -> yields sortv sources p (after pre) R -> one_per_name R) ->
  exists R, yields sortv sources p (after ds) R
    /\ forall i m, apply_ops no_objects (concat outs) i = Some m <-> exists d, In d R /\ doc_id d = Some i /\ m = encapsulate target d i.1 i.2.
Proof. intros FF EE sortv target sources p pp o ds p' outs H1 H2. apply c51_core. by apply exact_clean. Qed.
Print Assumptions C51_meaning_partial.

(** With one source, the names are unique if the stages leave them alone. *)
Theorem C51_names : forall (FF : FloatFmt) (EE : ExprEnv) sortv source p ds pre post R,
  name_paths -> Forall stage_keeps_names p -> history_ok clean [source] ∅ ds -> named_history ds ->
  ds = pre ++ post -> yields sortv [source] p (after pre) R -> one_per_name R.
Proof. exact @c51_names. Qed.
Print Assumptions C51_names.
(** A projection to a dictionary that copies the metadata leaves names alone. *)
Theorem C51_projection : forall (FF : FloatFmt) (EE : ExprEnv) m, is_order iterate ->
  (forall d w, mget d "metadata" = Some (JMap w) -> get_raw "$.metadata" (JMap d) = Val (JMap w)) ->
  In ("metadata"%string, strE "$.metadata") m -> (forall k e, In (k, e) m -> plain_key k /\ (k = "metadata"%string -> e = strE "$.metadata")) ->
  stage_keeps_names (Stage KProject (dictE m)).
Proof. exact @c51_projection. Qed.
Print Assumptions C51_projection.
(** Expressions without arithmetic stay within clean documents. *)
Theorem C51_tidy : forall (FF : FloatFmt) (EE : ExprEnv), env_clean -> forall s, tidy_stage s = true -> stage_clean s.
Proof. exact @tidy_stage_clean. Qed.
Print Assumptions C51_tidy.
(** The three together. *)
Theorem C51_one_source_partial : forall (FF : FloatFmt) (EE : ExprEnv) sortv target source p pp o ds p' outs,
  fmt_ok -> fmt_inj -> env_clean -> name_paths -> gvk_ok target ->
  Forall (fun s => tidy_stage s = true /\ stage_keeps_names s) p -> declare clean target [source] p = Some pp -> order_ok o ->
  history_ok clean [source] ∅ ds -> named_history ds -> pipe_run clean sortv o 0 pp ds = (p', map Some outs) ->
  exists R, stages_mean sortv p (of_kind (gvk_kind source) (after ds)) R
    /\ forall i m, apply_ops no_objects (concat outs) i = Some m <-> exists d, In d R /\ doc_id d = Some i /\ m = encapsulate target d i.1 i.2.
Proof.
  intros FF EE sortv target source p pp o ds p' outs H1 H2 HE HN Ht HS HD Ho HH Hn HR.
  assert (HK : Forall stage_keeps_names p) by (eapply Forall_impl; [exact HS|]; by intros s [_ ?]).
  destruct (C51_meaning_partial FF EE sortv target [source] p pp o ds p' outs H1 H2 Ht) as (R & HY & HR'); try done.
  - apply NoDup_singleton.
  - eapply Forall_impl; [exact HS|]. intros s [Hs _]. by apply tidy_stage_clean.
  - intros pre post R E HY. by eapply C51_names.
  - exists R. split; [|done]. destruct p as [|[[] e] p]; try (destruct HY as (s & [= <-] & HY); exact HY). by apply Forall_cons in HK as [[] _].
Qed.
Print Assumptions C51_one_source_partial.

(** Running pods, one object for each of their ports, the ports grouped by protocol. *)
Definition port (n : Z) (proto : string) : json := JMap [("port"%string, JInt n); ("proto"%string, JStr proto)].
Definition server (name phase : string) (ports : list json) : jobj := pod name phase ++ [("ports"%string, JList ports)].
Definition ex_stages : list stage :=
  [Stage KSelect (opl "@eq" [strE "$.phase"; strE "on"]);
   Stage KProject (dictE [("metadata"%string, strE "$.metadata"); ("ports"%string, strE "$.ports")]);
   Stage KUnwind (strE "$.ports");
   Stage KGather (listE [strE "$.ports.proto"; strE "$.ports.port"])].
Definition ex_events : list delta :=
  [Delta Added (server "a" "on" [port 80 "TCP"; port 53 "UDP"]); Delta Added (server "b" "off" [port 443 "TCP"]);
   Delta Updated (server "b" "on" [port 443 "TCP"; port 8443 "TCP"]); Delta Updated (server "a" "on" [port 8080 "TCP"])].
Definition ex_run (p : list stage) (sources : list gvk) (ds : list delta) : option (list (option (list delta))) :=
  (fun pp => (pipe_run clean (fun l => l) std_order 0 pp ds).2) <$> declare clean tgt_gvk sources p.
(** What the target holds under a name of namespace "default". *)
Definition ex_at (p : list stage) (sources : list gvk) (ds : list delta) (name : string) : option jobj :=
  rs ← ex_run p sources ds; apply_ops no_objects (concat (omap id rs)) ("default"%string, name).

Lemma owf_ex (d : jobj) : clean d = true -> owf d.
Proof. intros H. destruct (proj2 (keyed_clean d) H) as [k Hk]. by eapply (proj2 exact_sci). Qed.
Ltac an_event := split; [apply owf_ex; vm_compute; reflexivity|]; split; [vm_compute; reflexivity|]; split; [vm_compute; reflexivity|];
  split; [apply (bool_decide_eq_true _); vm_compute; reflexivity|]; split; [vm_compute; by eexists|]; split; [split; vm_compute; reflexivity|]; try exact I; vm_compute; reflexivity.
Lemma path_meta (d w : jobj) : mget d "metadata" = Some (JMap w) -> get_raw "$.metadata" (JMap d) = Val (JMap w).
Proof.
  intros E. change (match Some (walk ["metadata"%string] (JMap d)) with None => Err | Some [] => Val JNull | Some (v :: _) => Val v end = Val (JMap w)). cbn [walk]. by rewrite E.
Qed.
Lemma ex_keeps : Forall (fun s => tidy_stage s = true /\ stage_keeps_names s) ex_stages.
Proof.
  assert (HS : forall l v (d d' : jobj), match l with [] => False | k :: _ => k <> "metadata"%string end -> (r ← put l v (JMap d); as_object r) = Some d' -> doc_id d' = doc_id d).
  { intros l v d d' Hl. destruct (put l v (JMap d)) as [r|] eqn:E; [|done]. cbn. destruct r; try done. intros [= <-]. by eapply put_names. }
  repeat (apply List.Forall_cons; [split; [vm_compute; reflexivity|]|]); [exact I| | | |apply List.Forall_nil].
  - apply C51_projection; [by intros l|exact path_meta|by left|]. intros k e [[= <- <-]|[[= <- <-]|[]]]; done.
  - intros path d v d' [= <-]. by apply (HS ["ports"%string] v d d').
  - intros k e path d v d' [= <- <-] [= <-]. by apply (HS ["ports"%string; "port"%string] v d d').
Qed.
Example C51_example :
  fmt_ok /\ fmt_inj /\ env_clean /\ name_paths /\ gvk_ok tgt_gvk /\ order_ok std_order
  /\ Forall (fun s => tidy_stage s = true /\ stage_keeps_names s) ex_stages /\ history_ok clean [pod_gvk] ∅ ex_events /\ named_history ex_events
  /\ all_ok <$> ex_run ex_stages [pod_gvk] ex_events = Some true
  /\ map (ex_at ex_stages [pod_gvk] ex_events) ["a"; "a-0"; "a-1"; "b-1"]%string = [None; None; None; None]
  /\ (m ← ex_at ex_stages [pod_gvk] ex_events "b-0"; mget m "ports") = Some (JMap [("port"%string, JList [JInt 443; JInt 8443; JInt 8080]); ("proto"%string, JStr "TCP")]).
Proof.
  split_and!; [exact sci_ok|exact sci_inj|exact path_clean|exact path_names|vm_compute; by eauto|exact std_order_ok|exact ex_keeps| | |vm_compute; reflexivity..].
  - repeat (split; [an_event|]). exact I.
  - repeat (apply List.Forall_cons; [vm_compute; by eexists|]). apply List.Forall_nil.
Qed.

(** A join: pods and services in the same phase, named after the pod. *)
Definition join_stages : list stage :=
  [Stage KJoin (opl "@eq" [strE "$.Pod.phase"; strE "$.Service.phase"]);
   Stage KProject (dictE [("metadata"%string, strE "$.Pod.metadata"); ("service"%string, strE "$.Service.metadata.name")])].
Definition join_events : list delta := [Delta Added (pod "a" "on"); Delta Added (svc "s" "off"); Delta Updated (svc "s" "on")].
Lemma one_project e x R : stages_mean (fun l => l) [Stage KProject e] [x] R -> exists d, projected e x d /\ R = [d].
Proof.
  intros H. inversion H as [|s p l l1 l2 l' H1 H2 H3]; subst. inversion H3 as [l r H4|]; subst. apply Permutation_singleton_l in H1; subst l1.
  apply Forall2_cons_inv_l in H2 as (d & l & Hd & Hn & ->). apply Forall2_nil_inv_l in Hn as ->. apply Permutation_singleton_l in H4; subst R. by exists d.
Qed.
Lemma none_project e R : stages_mean (fun l => l) [Stage KProject e] [] R -> R = [].
Proof.
  intros H. inversion H as [|s p l l1 l2 l' H1 H2 H3]; subst. inversion H3 as [l r H4|]; subst. apply Permutation_nil_l in H1; subst l1.
  apply Forall2_nil_inv_l in H2 as ->. by apply Permutation_nil_l in H4; subst R.
Qed.
Lemma join_names pre post R : join_events = pre ++ post -> yields (fun l => l) [pod_gvk; svc_gvk] join_stages (after pre) R -> one_per_name R.
Proof.
  intros E (l & [_ Hl] & HR).
  assert (N : forall R, R = [] -> one_per_name R) by (intros ? ->; split; [apply NoDup_nil; done|done]).
  assert (pre = take (length pre) join_events) as Ep by (rewrite E; by rewrite take_app).
  assert (length pre <= 3)%nat as Hn by (apply (f_equal length) in E; rewrite app_length in E; cbn in E; lia).
  rewrite Ep in Hl. clear E Ep. revert Hl Hn. generalize (length pre). intros [|[|[|[|n]]]] Hl Hn; [| | | |lia]; subst l.
  1-3: vm_compute in HR; by apply N, (none_project _ _ HR).
  vm_compute in HR. apply one_project in HR as (d & [Hd|(us & Hd & _)] & ->); [|vm_compute in Hd; done]. vm_compute in Hd. injection Hd as <-.
  split; [apply NoDup_singleton|]. intros d [<-|[]]. eexists. split; [vm_compute; reflexivity|]. split; vm_compute; reflexivity.
Qed.
Example C51_join_example :
  Forall stage_clean join_stages /\ history_ok clean [pod_gvk; svc_gvk] ∅ join_events /\ NoDup (map gvk_kind [pod_gvk; svc_gvk])
  /\ (forall pre post R, join_events = pre ++ post -> yields (fun l => l) [pod_gvk; svc_gvk] join_stages (after pre) R -> one_per_name R)
  /\ all_ok <$> ex_run join_stages [pod_gvk; svc_gvk] join_events = Some true
  /\ (m ← ex_at join_stages [pod_gvk; svc_gvk] join_events "a"; mget m "service") = Some (JStr "s").
Proof.
  split_and!; [| | |exact join_names|vm_compute; reflexivity..].
  - repeat (apply List.Forall_cons; [apply (C51_tidy _ _ path_clean); vm_compute; reflexivity|]). apply List.Forall_nil.
  - repeat (split; [an_event|]). exact I.
  - apply NoDup_ListNoDup. repeat (constructor; [vm_compute; intuition discriminate|]). constructor.
Qed.

(** Refuted: unwinding an object that has lost its name is no error.  The target
    receives an object called "%!s(<nil>)-0". *)
Definition nameless : list stage :=
  [Stage KProject (dictE [("ports"%string, strE "$.ports")]); Stage KUnwind (strE "$.ports")].
Theorem C51_unwind_refuted :
  history_ok clean [pod_gvk] ∅ [Delta Added (server "a" "on" [port 80 "TCP"])]
  /\ all_ok <$> ex_run nameless [pod_gvk] [Delta Added (server "a" "on" [port 80 "TCP"])] = Some true
  /\ exists rs m, ex_run nameless [pod_gvk] [Delta Added (server "a" "on" [port 80 "TCP"])] = Some rs
       /\ apply_ops no_objects (concat (omap id rs)) (EmptyString, "%!s(<nil>)-0"%string) = Some m.
Proof.
  split_and!; [split; [an_event|exact I]|vm_compute; reflexivity|]. eexists _, _. split; [vm_compute; reflexivity|]. vm_compute. reflexivity.
Qed.
Print Assumptions C51_unwind_refuted.
