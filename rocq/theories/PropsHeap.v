(** C71: evaluating an expression leaves the document, and everything else, as it was. *)
From Verif Require Import JsonModel ExprModel ExprSpec HeapModel HeapSpec HeapProofs HeapProofs4 HeapProofs5 TestExpr TestStage TestHeap.
#[local] Open Scope nat_scope.

(** *** C71 *)
(** If no key of a map literal leads through a place that another key of the same literal
    sets, evaluation in memory gives what evaluation on values gives, also when it fails;
    nothing that was there is written.  Missing: the other literals, see below. *)
Theorem C71_pure_partial : forall (FF : FloatFmt) (EE : ExprEnv) (HE : HeapEnv), faithful_paths ->
  forall e h hc o s, safe_keys e -> json_of h (hc_object hc) = Some o -> json_of h (hc_subject hc) = Some s ->
  let '(h', r) := heval e hc h in
  reflects h' r (eval e (Ctx o s)) /\
  (forall n c, h !! n = Some c -> h' !! n = Some c) /\
  (forall v j, json_of h v = Some j -> json_of h' v = Some j).
Proof.
  intros FF EE HE FP e h hc o s S O J. destruct (heval_eval FP e h hc o s S O J) as (new & r & E & R). rewrite E. split_and!; [done| |].
  - intros n c H. by apply lookup_app_l_Some.
  - intros v j H. by apply json_app.
Qed.
Print Assumptions C71_pure_partial.
(** Several expressions on one document: each sees it as it was. *)
Fixpoint evals (es : list expr) (hc : hctx) {FF : FloatFmt} {EE : ExprEnv} {HE : HeapEnv} (h : heap) : heap * list (res hval) :=
  match es with [] => (h, []) | e :: es => let '(h, r) := heval e hc h in let '(h, rs) := evals es hc h in (h, r :: rs) end.
Theorem C71_many_partial : forall (FF : FloatFmt) (EE : ExprEnv) (HE : HeapEnv), faithful_paths ->
  forall es h hc o s, Forall safe_keys es -> json_of h (hc_object hc) = Some o -> json_of h (hc_subject hc) = Some s ->
  let '(h', rs) := evals es hc h in
  Forall2 (fun e r => reflects h' r (eval e (Ctx o s))) es rs /\ json_of h' (hc_object hc) = Some o /\ json_of h' (hc_subject hc) = Some s.
Proof.
  intros FF EE HE FP es h hc o s F. revert h. induction F as [|e es S F IH]; intros h O J; cbn; [done|].
  pose proof (C71_pure_partial FF EE HE FP e h hc o s S O J) as X. destruct (heval e hc h) as [h1 r] eqn:E1. destruct X as (R & _ & K).
  specialize (IH h1 (K _ _ O) (K _ _ J)).
  assert (G : forall h0 v j, json_of h0 v = Some j -> json_of h0 (hc_object hc) = Some o -> json_of h0 (hc_subject hc) = Some s -> json_of (evals es hc h0).1 v = Some j).
  { clear -F FP. induction F as [|e es S F IH]; intros h0 v j H1 H2 H3; cbn; [done|]. pose proof (C71_pure_partial FF EE HE FP e h0 hc o s S H2 H3) as X.
    destruct (heval e hc h0) as [h1 r]. destruct X as (_ & _ & K). specialize (IH h1 v j (K _ _ H1) (K _ _ H2) (K _ _ H3)). by destruct (evals es hc h1). }
  specialize (G h1). destruct (evals es hc h1) as [h2 rs]. cbn in G. destruct IH as (I1 & I2 & I3). split_and!; [|done|done]. constructor; [|done].
  unfold reflects in *. destruct r as [v| |], (eval e (Ctx o s)) as [j| |]; try done. apply G; [done|by apply K..].
Qed.
Print Assumptions C71_many_partial.
(** Field names, and "$." next to them, are harmless. *)
Definition simple_key (k : string) : Prop := k = "$."%string \/ match k with String c _ => c <> dollar | EmptyString => True end.
Theorem C71_names : forall (HE : HeapEnv) ks, Forall simple_key ks -> keys_apart ks.
Proof.
  intros HE ks F. rewrite Forall_forall in F. assert (P : forall k, k ∈ ks -> k = "$."%string /\ path_of k = Some [] \/ path_of k = Some [k]).
  { intros k Hk. destruct (F k Hk) as [->|H]; [by left|]. unfold path_of. case_decide; [by left|]. right. destruct k as [|c k]; [done|]. by rewrite decide_False. }
  split.
  - intros k Hk. destruct (P k Hk) as [[_ E]|E]; by eexists.
  - intros k k' p x r Hk Hk' E E'. destruct (P k Hk) as [[_ Q]|Q], (P k' Hk') as [[_ Q']|Q']; rewrite Q in E; rewrite Q' in E'; injection E as <-; try done.
    cbn in E'. by injection E' as <- <-.
Qed.
Print Assumptions C71_names.

(** Whatever the expression: what has nothing in common with its document stays as it was. *)
Theorem C71_isolated : forall (FF : FloatFmt) (EE : ExprEnv) (HE : HeapEnv), inner_paths ->
  forall e h hc v j, disjoint h v (hc_object hc) -> disjoint h v (hc_subject hc) -> json_of h v = Some j ->
  json_of (heval e hc h).1 v = Some j.
Proof.
  intros FF EE HE IP e h hc v j D1 D2 J. set (D := fun n => within h (hc_object hc) (HRef n) \/ within h (hc_subject hc) (HRef n)).
  assert (R : forall n w, D n \/ length h <= n -> (exists l, h !! n = Some (CList l) /\ w ∈ l) \/ (exists m k, h !! n = Some (CMap m) /\ (k, w) ∈ m) -> inD D (length h) w).
  { intros n w Hn Hw. assert (n < length h). { destruct Hw as [(l & E & _)|(m & k & E & _)]; by eapply lookup_lt_Some. }
    destruct Hn as [Hn|]; [|lia]. destruct w as [| | | | |i]; try done. left. destruct Hw as [(l & E & X)|(m & k & E & X)], Hn as [Hn|Hn]; [left|right|left|right]; by econstructor. }
  destruct (ck2_ck D (length h) 0 e (heval_ck IP D (length h) e 0) hc) with (h := h) as (_ & F & _).
  - split; unfold inD, dom, D.
    + destruct (hc_object hc); try done. left. left. constructor.
    + destruct (hc_subject hc); try done. left. right. constructor.
  - split; [done|]. intros n c Hn E. destruct c as [l|m]; cbn.
    + apply Forall_forall. intros w Hw. eapply R; [exact Hn|]. left. by exists l.
    + apply Forall_forall. intros [k w] Hw. eapply R; [exact Hn|]. right. by exists m, k.
  - eapply json_frame; [exact J|]. intros n W L. apply F. intros [[Hn|Hn]|Hn]; [by apply (D1 n)|by apply (D2 n)|lia].
Qed.
Print Assumptions C71_isolated.
(** A projection changes nothing that others can see, whatever its expression, and
    computes what evaluation on values does if the keys of its map literals are apart. *)
Theorem C71_project : forall (FF : FloatFmt) (EE : ExprEnv) (HE : HeapEnv), inner_paths ->
  forall e h d,
  (forall v j, json_of h v = Some j -> json_of (eval_project e d h).1 v = Some j) /\
  (forall o, faithful_paths -> safe_keys e -> json_of h d = Some o -> reflects (eval_project e d h).1 (eval_project e d h).2 (eval e (Ctx o JNull))).
Proof.
  intros FF EE HE IP e h d. split.
  - intros v j J. assert (K : keeps (fun _ => False) (length h) (inD (fun _ => False) (length h)) (eval_project e d)).
    { unfold eval_project. eapply keeps_bind; [apply keeps_copy|]. intros w W. apply (ck2_ck _ _ 0 e (heval_ck IP _ _ e 0)). by split. }
    destruct (K h) as (_ & F & _).
    + split; [done|]. intros n c [[]|Hn] E. apply lookup_lt_Some in E. lia.
    + eapply json_frame; [exact J|]. intros n W L. apply F. intros [[]|Hn]. lia.
  - intros o FP S O. unfold eval_project, hbind, deep_copy. rewrite O. destruct (alloc_reads o h) as [[new P] R]. destruct (alloc o h) as [h1 w]. cbn in P, R.
    destruct (heval_eval FP e h1 (HCtx w HNull) o JNull S) as (new2 & r & E & X); [by eapply reads_json|done|]. by rewrite E.
Qed.
Print Assumptions C71_project.
(** A selection whose map literals are harmless passes on the document as it was. *)
Theorem C71_select_partial : forall (FF : FloatFmt) (EE : ExprEnv) (HE : HeapEnv), faithful_paths ->
  forall e h d o, safe_keys e -> json_of h d = Some o ->
  let '(h', r) := eval_select e d h in
  r = rbind (eval e (Ctx o JNull)) (fun v => match v with JBool b => Val (if b then Some d else None) | _ => Err end) /\
  (forall v j, json_of h v = Some j -> json_of h' v = Some j).
Proof.
  intros FF EE HE FP e h d o S O. pose proof (C71_pure_partial FF EE HE FP e h (HCtx d HNull) o JNull S O eq_refl) as X.
  unfold eval_select, hbind. destruct (heval e (HCtx d HNull) h) as [h1 r]. destruct X as (R & _ & K). unfold reflects in R.
  destruct r as [v| |], (eval e (Ctx o JNull)) as [j| |]; try done. apply json_reads in R. destruct j as [| | | | |l|m]; [cbn in R; subst v; by cbn..| |].
  - rewrite reads_list in R. destruct R as (n & vs & -> & _). by cbn.
  - rewrite reads_map in R. destruct R as (n & vs & -> & _). by cbn.
Qed.
Print Assumptions C71_select_partial.

(** *** Examples *)
Definition root : string -> expr := strE.
Definition pod : json := JMap [("metadata"%string, JMap [("name"%string, JStr "a"); ("namespace"%string, JStr "b")])].
Definition mem : heap := (alloc pod []).1.
Definition at_pod : hctx := HCtx (alloc pod []).2 HNull.
Definition after (e : expr) : option json * option json :=
  let '(h, r) := heval e at_pod mem in (json_of h (hc_object at_pod), match r with Val v => json_of h v | _ => None end).
(** { "$.": "$.", "name": "$.metadata.name" } shares the metadata with the document. *)
Definition copies : expr := dictE [("$."%string, root "$."); ("name"%string, root "$.metadata.name")].
Example C71_example : safe_keys copies /\ faithful_paths /\ json_of mem (hc_object at_pod) = Some pod /\
  after copies = (Some pod, Some (JMap [("metadata"%string, JMap [("name"%string, JStr "a"); ("namespace"%string, JStr "b")]); ("name"%string, JStr "a")])).
Proof.
  split_and!; [|exact path_faithful|vm_compute; reflexivity..]. constructor; [done|done|]. intros m [= <-]. split.
  - apply C71_names. constructor; [by left|]. constructor; [by right|constructor].
  - repeat constructor; done.
Qed.
Example C71_names_example : Forall simple_key ["$."; "name"]%string /\ ~ keys_apart ["$."; "$.metadata.name"]%string.
Proof.
  split; [constructor; [by left|]; constructor; [by right|constructor]|]. intros [_ H].
  specialize (H "$."%string "$.metadata.name"%string [] "metadata"%string ["name"%string] ltac:(by left) ltac:(right; by left) ltac:(done) ltac:(vm_compute; reflexivity)). done.
Qed.
(** { "$.": "$.", "$.metadata.name": "x" } renames the document itself. *)
Definition renames : expr := dictE [("$."%string, root "$."); ("$.metadata.name"%string, strE "x")].
Theorem C71_write_refuted : after renames =
  (Some (JMap [("metadata"%string, JMap [("name"%string, JStr "x"); ("namespace"%string, JStr "b")])]),
   Some (JMap [("metadata"%string, JMap [("name"%string, JStr "x"); ("namespace"%string, JStr "b")])])) /\
  json_of mem (hc_object at_pod) = Some pod.
Proof. split; vm_compute; reflexivity. Qed.
Print Assumptions C71_write_refuted.
(** What comes after it in a list sees the new name; on values it is the old one. *)
Theorem C71_sibling_refuted :
  let e := listE [renames; dictE [("was"%string, root "$.metadata.name")]] in
  let x := JMap [("metadata"%string, JMap [("name"%string, JStr "x"); ("namespace"%string, JStr "b")])] in
  (after e).2 = Some (JList [x; JMap [("was"%string, JStr "x")]]) /\
  eval e (Ctx pod JNull) = Val (JList [x; JMap [("was"%string, JStr "a")]]).
Proof. split; vm_compute; reflexivity. Qed.
Print Assumptions C71_sibling_refuted.
(** { "$.": "$.", "$.metadata.self": "$." } makes the document part of itself: it is no
    longer JSON, and copying it does not end. *)
Theorem C71_cycle_refuted :
  let e := dictE [("$."%string, root "$."); ("$.metadata.self"%string, root "$.")] in
  after e = (None, None) /\ (heval e at_pod mem).2 = Val (HRef 2) /\
  exists j, eval e (Ctx pod JNull) = Val j.
Proof. cbn zeta. split_and!; [vm_compute; reflexivity..|]. eexists. vm_compute. reflexivity. Qed.
Print Assumptions C71_cycle_refuted.
(** A selection that asks whether the map exists renames the document that it passes on. *)
Theorem C71_select_refuted :
  let '(h, r) := eval_select (op1 "@exists" renames) (hc_object at_pod) mem in
  r = Val (Some (hc_object at_pod)) /\
  json_of h (hc_object at_pod) = Some (JMap [("metadata"%string, JMap [("name"%string, JStr "x"); ("namespace"%string, JStr "b")])]).
Proof. vm_compute. split; reflexivity. Qed.
Print Assumptions C71_select_refuted.
(** So does a projection that was fused with a selection, not one that was not. *)
Theorem C71_fused_refuted :
  json_of (eval_fused_project renames (hc_object at_pod) mem).1 (hc_object at_pod) <> Some pod /\
  json_of (eval_project renames (hc_object at_pod) mem).1 (hc_object at_pod) = Some pod.
Proof. split; [vm_compute; discriminate|vm_compute; reflexivity]. Qed.
Print Assumptions C71_fused_refuted.
(** The hypotheses of the theorems above. *)
Definition other : json := JMap [("a"%string, JInt 1)].
Example C71_isolated_example :
  let '(h, v) := alloc other mem in
  inner_paths /\ disjoint h v (hc_object at_pod) /\ disjoint h v HNull /\ json_of h v = Some other /\
  json_of (heval renames at_pod h).1 (hc_object at_pod) <> Some pod /\ json_of (heval renames at_pod h).1 v = Some other.
Proof.
  cbn [alloc other]. split_and!; [exact path_inner| | |vm_compute; reflexivity|vm_compute; discriminate|vm_compute; reflexivity].
  - intros n A B. assert (n = 2 /\ (n = 0 \/ n = 1)) as [-> [?|?]]; [|lia..]. split.
    + clear B. remember (HRef n) as w eqn:E. revert n E. induction A as [|i l w A IH L X|i m k w A IH L X]; intros n E.
      * by injection E as <-.
      * pose proof (IH i eq_refl) as ->. done.
      * pose proof (IH i eq_refl) as ->. vm_compute in L. injection L as <-. subst w. by apply elem_of_list_singleton in X.
    + clear A. remember (HRef n) as w eqn:E. revert n E. induction B as [|i l w A IH L X|i m k w A IH L X]; intros n E.
      * injection E as <-. by right.
      * destruct (IH i eq_refl) as [->| ->]; done.
      * subst w. destruct (IH i eq_refl) as [->| ->]; vm_compute in L; injection L as <-.
        -- apply elem_of_cons in X as [X|X]; [done|]. by apply elem_of_list_singleton in X.
        -- apply elem_of_list_singleton in X. injection X as _ ->. by left.
  - intros n _ B. remember (HRef n) as w eqn:E. revert n E. induction B as [|i l w A IH L X|i m k w A IH L X]; intros n E; [done|by eapply IH..].
Qed.
Example C71_select_example : safe_keys (op1 "@exists" copies) /\
  (let '(h, r) := eval_select (op1 "@exists" copies) (hc_object at_pod) mem in r = Val (Some (hc_object at_pod)) /\ json_of h (hc_object at_pod) = Some pod).
Proof.
  split; [|vm_compute; split; reflexivity]. constructor; [|done|done]. intros a [= <-]. apply C71_example.
Qed.
