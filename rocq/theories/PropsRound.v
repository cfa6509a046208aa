(** Properties C41 and C42: expressions and pipelines on their way through JSON. *)
From stdpp Require Import gmap.
From Verif Require Import JsonModel ObjModel JsonProofs ExprModel ExprSpec ExprProofs ExprProofs2 ExprProofs3 RoundProofs PipeJsonModel PipeJsonSpec TestExpr.
#[local] Open Scope Z_scope.

(** *** C42: expressions *)
(** Missing: the expressions that are not portable, see below. *)
Theorem C42_round_trip_partial : forall (FF : FloatFmt) (EE : ExprEnv) e, portable e ->
  exists j e', marshal e = Some j /\ unmarshal j = Val e' /\ forall ctx, eval e' ctx = eval e ctx.
Proof. intros FF EE e P. destruct (portable_round e P) as (j & e' & A & B & C). exists j, e'. split; [done|]. split; [done|]. by apply similar_eval. Qed.
Print Assumptions C42_round_trip_partial.
Definition sample : expr := dictE [("a"%string, opl "@sum" [Expr "@int" None (LVal (JStr "12")); strE "$.a"]); ("b"%string, Expr "@noop" None (LVal JNull)); ("c"%string, Expr "@float" None (LVal (JFloat half)))].
Example C42_round_trip_example : portable sample /\ gives sample here (JMap [("a"%string, JInt 13); ("b"%string, JNull); ("c"%string, JFloat half)]).
Proof.
  split; [|vm_compute; reflexivity]. apply pt_dict; [|done]. apply List.Forall_cons; [|apply List.Forall_cons; [|apply List.Forall_cons; [|apply List.Forall_nil]]]; cbn [snd].
  - apply pt_op; [|done|set_solver]. apply pt_list. apply List.Forall_cons; [|apply List.Forall_cons; [|apply List.Forall_nil]].
    + by apply (pt_int (JStr "12") 12). + by apply (pt_string (JStr "$.a") "$.a").
  - apply pt_noop.
  - by apply (pt_float (JFloat half) half "0.5").
Qed.

(** A decoded specification is written and decoded again to the very same expression. *)
Theorem C42_decoded_partial : forall (FF : FloatFmt) (EE : ExprEnv) j e, portable_json j -> unmarshal j = Val e ->
  marshal e = Some (null_false j) /\ unmarshal (null_false j) = Val e /\ deep_copy e = Val e.
Proof. intros FF EE j e P U. destruct (decoded_round j P e U) as [A B]. split; [done|]. split; [done|]. unfold deep_copy. by rewrite A, B. Qed.
Print Assumptions C42_decoded_partial.
Definition sample_json : json := JMap [("@cond"%string, JList [JMap [("@eq"%string, JList [JStr "$.a"; JNull])]; JMap [("x"%string, JFloat half)]; JStr "$.m"])].
Example C42_decoded_example : portable_json sample_json /\ exists e, unmarshal sample_json = Val e /\ gives e here (JMap [("name"%string, JStr "x"); ("ns"%string, JStr "y")]).
Proof.
  assert (K : forall k v, portable_json v -> k ∉ [""; "@any"; "@list"; "@dict"]%string -> portable_json (JMap [(k, v)])).
  { intros k v H N. apply pj_map; [by constructor|..].
    - intros w E. injection E as -> _. set_solver.
    - intros w op I E. injection E as -> _. set_solver. }
  split.
  - apply K; [|set_solver]. apply pj_list. apply List.Forall_cons; [|apply List.Forall_cons; [|apply List.Forall_cons; [|apply List.Forall_nil]]].
    + apply K; [|set_solver]. apply pj_list. apply List.Forall_cons; [by apply pj_str|apply List.Forall_cons; [apply pj_null|apply List.Forall_nil]].
    + apply K; [|set_solver]. by apply (pj_float half "0.5").
    + by apply pj_str.
  - eexists. split; [vm_compute; reflexivity|vm_compute; reflexivity].
Qed.

(** Making a deep copy does not fail: an expression that cannot be written or read back is
    taken over as it is. *)
Theorem C42_deep_copy_total : forall (FF : FloatFmt) (EE : ExprEnv) e,
  (exists j, marshal e = Some j /\ unmarshal j = Panic /\ deep_copy e = Panic) \/
  (exists j e', marshal e = Some j /\ unmarshal j = Val e' /\ deep_copy e = Val e') \/
  deep_copy e = Val e.
Proof.
  intros FF EE e. unfold deep_copy. destruct (marshal e) as [j|]; [|by right; right]. destruct (unmarshal j) as [e'| |] eqn:E; [|by right; right|by left; exists j].
  right. left. by exists j, e'.
Qed.
Print Assumptions C42_deep_copy_total.
Example C42_deep_copy_total_example : marshal (Expr "and" None (LVal JNull)) = None /\ deep_copy (Expr "and" None (LVal JNull)) = Val (Expr "and" None (LVal JNull)).
Proof. vm_compute. split; reflexivity. Qed.

(** Deep copies of portable expressions evaluate to the same. *)
Theorem C42_deep_copy_partial : forall (FF : FloatFmt) (EE : ExprEnv) e, portable e -> exists e', deep_copy e = Val e' /\ forall ctx, eval e' ctx = eval e ctx.
Proof.
  intros FF EE e P. destruct (C42_round_trip_partial FF EE e P) as (j & e' & A & B & C). exists e'. unfold deep_copy. by rewrite A, B.
Qed.
Print Assumptions C42_deep_copy_partial.
Example C42_deep_copy_example : exists e', deep_copy sample = Val e' /\ gives e' here (JMap [("a"%string, JInt 13); ("b"%string, JNull); ("c"%string, JFloat half)]).
Proof. eexists. split; [vm_compute; reflexivity|]. vm_compute. reflexivity. Qed.

(** @any becomes the constant false, by marshalling and by deep copies. *)
Theorem C42_any_refuted : forall (FF : FloatFmt) (EE : ExprEnv) a ctx,
  marshal (op1 "@any" a) = Some JNull /\ deep_copy (op1 "@any" a) = Val (boolE false) /\ gives (boolE false) ctx (JBool false).
Proof. done. Qed.
Print Assumptions C42_any_refuted.
Example C42_any_example : exists e, unmarshal (JMap [("@any"%string, JList [JMap [("@gt"%string, JList [JStr "$$."; JInt 2])]; JStr "$.l"])]) = Val e /\ gives e here (JBool true) /\ deep_copy e = Val (boolE false).
Proof. eexists. split; [vm_compute; reflexivity|]. split; vm_compute; reflexivity. Qed.
(** A float that prints like an integer comes back as an integer. *)
Theorem C42_float_refuted : exists e e', (j ← marshal e; Some (unmarshal j)) = Some (Val e') /\ gives e here (JFloat one) /\ gives e' here (JInt 1) /\
  gives (opl "@eq" [e; e]) here (JBool true) /\ gives (opl "@eq" [e; e']) here (JBool false).
Proof. exists (Expr "@float" None (LVal (JFloat one))), (intE 1). vm_compute. repeat split; reflexivity. Qed.
Print Assumptions C42_float_refuted.
(** The empty string is refused by the decoder. *)
Theorem C42_empty_string_refuted : forall (FF : FloatFmt) (EE : ExprEnv) ctx, gives (strE "") ctx (JStr "") /\ marshal (strE "") = Some (JStr "") /\ unmarshal (JStr "") = Err.
Proof. done. Qed.
Print Assumptions C42_empty_string_refuted.
(** @list and @dict around an expression are lost; the former changes the value. *)
Theorem C42_list_refuted : forall (FF : FloatFmt) (EE : ExprEnv) e, marshal (op1 "@list" e) = marshal e /\ marshal (op1 "@dict" e) = marshal e.
Proof. done. Qed.
Print Assumptions C42_list_refuted.
Example C42_list_example : let d := Ctx (JMap [("x"%string, JList [JList [JInt 1]; JInt 2])]) JNull in
  gives (op1 "@list" (strE "$.x")) d (JList [JInt 1]) /\ gives (strE "$.x") d (JList [JList [JInt 1]; JInt 2]).
Proof. vm_compute. split; reflexivity. Qed.
(** A map with the empty key only makes the decoder panic. *)
Theorem C42_panic_refuted : forall (FF : FloatFmt) (EE : ExprEnv) j e, unmarshal j = Val e -> unmarshal (JMap [(EmptyString, j)]) = Panic.
Proof. intros FF EE j e H. rewrite unmarshal_obj. cbn [unmarshal_map]. by rewrite H. Qed.
Print Assumptions C42_panic_refuted.

(** *** C41: pipelines *)
Lemma stage_round {FF : FloatFmt} {EE : ExprEnv} s : portable (st_expr s) -> exists j s', marshal_stage s = Some j /\ unmarshal_stage j = Val s' /\ same_stage s s' /\ exists m, j = JMap m.
Proof.
  intros P. destruct (C42_round_trip_partial FF EE _ P) as (j & e' & A & B & C). exists (JMap [(op_type (st_kind s), j)]), (Stage (st_kind s) e'). split; [|split; [|split]].
  - unfold marshal_stage. by rewrite A.
  - unfold unmarshal_stage. rewrite B. cbn [rbind]. by destruct (st_kind s).
  - done.
  - eauto.
Qed.
Theorem C41_round_trip_partial : forall (FF : FloatFmt) (EE : ExprEnv) (p : list stage), Forall (fun s => portable (st_expr s)) p ->
  exists j p', marshal_pipeline p = Some j /\ unmarshal_pipeline j = Val p' /\ Forall2 same_stage p p'.
Proof.
  intros FF EE p F.
  assert (X : exists js p', collect marshal_stage p = Some js /\ unmarshal_stages js = Val p' /\ Forall2 same_stage p p').
  { induction F as [|s p F1 F2 IH]; [by exists [], []|]. destruct (stage_round s F1) as (j & s' & A & B & C & _). destruct IH as (js & p' & A' & B' & C').
    exists (j :: js), (s' :: p'). cbn [collect unmarshal_stages]. rewrite A, B. cbn. rewrite A', B'. cbn. split; [done|]. split; [done|]. by constructor. }
  destruct p as [|s [|s2 p]].
  - by exists (JList []), [].
  - inversion_clear F as [|? ? F1 _]. destruct (stage_round s F1) as (j & s' & A & B & C & m & ->). exists (JMap m), [s']. split; [done|]. split; [unfold unmarshal_pipeline; by rewrite B|constructor; [done|constructor]].
  - destruct X as (js & p' & A & B & C). exists (JList js), p'. unfold marshal_pipeline. by rewrite A.
Qed.
Print Assumptions C41_round_trip_partial.
Example C41_round_trip_example : exists j, marshal_pipeline [Stage KSelect (opl "@eq" [strE "$.a"; intE 1]); Stage KProject sample] = Some j /\
  exists p, unmarshal_pipeline j = Val p /\ map st_kind p = [KSelect; KProject].
Proof. eexists. split; [vm_compute; reflexivity|]. eexists. split; [vm_compute; reflexivity|]. vm_compute. reflexivity. Qed.

Lemma kind_name k s : kind_of_name s = Some k <-> (s, k) ∈ stage_names.
Proof.
  unfold kind_of_name, stage_names. split.
  - intros H. repeat case_decide; subst; try done; injection H as <-; set_solver.
  - intros H. repeat (apply elem_of_cons in H; destruct H as [H|H]; [injection H as -> ->; vm_compute; reflexivity|]). by apply elem_of_nil in H.
Qed.
(** A decoded pipeline is written and decoded again to the very same pipeline. *)
Definition stage_json (name : string) (j : json) : json := JMap [(name, j)].
Theorem C41_decoded_partial : forall (FF : FloatFmt) (EE : ExprEnv) (specs : list (string * json)) (p : list stage), Forall (fun s => portable_json s.2) specs ->
  unmarshal_pipeline (JList (map (fun s => stage_json s.1 s.2) specs)) = Val p ->
  exists j, marshal_pipeline p = Some j /\ unmarshal_pipeline j = Val p.
Proof.
  intros FF EE specs p F U. cbn [unmarshal_pipeline] in U.
  assert (S1 : forall name j s, portable_json j -> unmarshal_stage (stage_json name j) = Val s -> exists m, marshal_stage s = Some (JMap m) /\ unmarshal_stage (JMap m) = Val s).
  { intros name j s P E. unfold unmarshal_stage, stage_json in E. destruct (unmarshal j) as [e| |] eqn:U1; [|done..]. cbn [rbind] in E. destruct (kind_of_name name) as [kd|] eqn:K; [|done]. injection E as <-.
    destruct (decoded_round j P e U1) as [A B]. exists [(op_type kd, null_false j)]. unfold marshal_stage. cbn [st_expr st_kind]. rewrite A. split; [done|]. unfold unmarshal_stage. rewrite B. by destruct kd. }
  assert (X : exists js, collect marshal_stage p = Some js /\ unmarshal_stages js = Val p).
  { revert p U. induction F as [|[name j] specs F1 F2 IH]; intros p U; cbn in U; [injection U as <-; by exists []|]. 
    change (rbind (unmarshal_stage (stage_json name j)) (fun s => rbind (unmarshal_stages (map (fun s => stage_json s.1 s.2) specs)) (fun p => Val (s :: p))) = Val p) in U.
    destruct (unmarshal_stage (stage_json name j)) as [s| |] eqn:U1; [|done..]. cbn [rbind] in U.
    destruct (unmarshal_stages _) as [p'| |]; [|done..]. injection U as <-. destruct (S1 name j s F1 U1) as (m & A & B). destruct (IH p' eq_refl) as (js & A' & B').
    exists (JMap m :: js). cbn [collect unmarshal_stages]. rewrite A, B. cbn. rewrite A', B'. done. }
  destruct X as (js & A & B). destruct p as [|s [|s2 p]].
  - by exists (JList []).
  - cbn in A. destruct (marshal_stage s) as [j|] eqn:M; [|done]. injection A as <-. exists j. split; [done|]. destruct specs as [|[name j0] [|? ?]].
    + done.
    + inversion_clear F as [|? ? F1 _]. cbn in U. change (rbind (rbind (unmarshal_stage (stage_json name j0)) (fun s => Val [s])) (fun p => Val p) = Val [s]) in U || idtac.
      change (rbind (unmarshal_stage (stage_json name j0)) (fun s => Val [s]) = Val [s]) in U. destruct (unmarshal_stage (stage_json name j0)) as [s0| |] eqn:U1; [|done..]. injection U as ->.
      destruct (S1 name j0 s F1 U1) as (m & A1 & B1). rewrite M in A1. injection A1 as ->. unfold unmarshal_pipeline. by rewrite B1.
    + exfalso. cbn [map unmarshal_stages] in U. destruct (unmarshal_stage _); [|done..]. cbn [rbind] in U. destruct (unmarshal_stage _); [|done..]. cbn [rbind] in U. by destruct (unmarshal_stages _).
  - exists (JList js). split; [|done]. unfold marshal_pipeline. by rewrite A.
Qed.
Print Assumptions C41_decoded_partial.
Example C41_decoded_example : exists p, unmarshal_pipeline (JList (map (fun s => stage_json s.1 s.2) [("@demux"%string, JStr "$.l"); ("@select"%string, sample_json)])) = Val p /\ map st_kind p = [KUnwind; KSelect].
Proof. eexists. split; [vm_compute; reflexivity|]. vm_compute. reflexivity. Qed.
(** The names that are accepted; all others are refused. *)
Theorem C41_names : forall (FF : FloatFmt) (EE : ExprEnv) name j s, unmarshal_stage (stage_json name j) = Val s <-> (name, st_kind s) ∈ stage_names /\ unmarshal j = Val (st_expr s).
Proof.
  intros FF EE name j [k e]. cbn [st_kind st_expr]. rewrite <- kind_name. unfold unmarshal_stage, stage_json. destruct (unmarshal j) as [e'| |]; cbn [rbind].
  - destruct (kind_of_name name) as [k'|]; split; try done; [intros E; by injection E as -> ->|intros [E F]; congruence|by intros [? _]].
  - split; [done|by intros [_ ?]].
  - split; [done|by intros [_ ?]].
Qed.
Print Assumptions C41_names.
Example C41_names_example : unmarshal_stage (stage_json "@mux" (JStr "x")) = Val (Stage KGather (strE "x")).
Proof. vm_compute. reflexivity. Qed.
(** A pipeline with @any in a stage does not survive. *)
Theorem C41_any_refuted : forall (FF : FloatFmt) (EE : ExprEnv) k a, exists j, marshal_pipeline [Stage k (op1 "@any" a)] = Some j /\ unmarshal_pipeline j = Val [Stage k (boolE false)].
Proof. intros FF EE k a. exists (JMap [(op_type k, JNull)]). split; [done|]. by destruct k. Qed.
Print Assumptions C41_any_refuted.

(** *** Copies *)
Lemma copy_stage_spec h l : l ∈ dom (stages h) -> let '(h', l') := copy_stage h l in
  cells h' = cells h /\ l' ∉ dom (stages h) /\ dom (stages h') = {[l']} ∪ dom (stages h) /\ stages h' !! l' = stages h !! l /\ forall k, k <> l' -> stages h' !! k = stages h !! k.
Proof.
  intros I. unfold copy_stage. apply elem_of_dom in I. destruct I as [s E]. rewrite E. cbn. split; [done|]. split; [apply is_fresh|]. split; [apply dom_insert_L|]. split; [by rewrite lookup_insert|].
  intros k N. by rewrite lookup_insert_ne.
Qed.
Lemma copy_stages_spec p : forall h, Forall (fun l => l ∈ dom (stages h)) p -> let '(h', p') := copy_stages h p in
  cells h' = cells h /\ Forall (fun l => l ∉ dom (stages h)) p' /\ (forall k, k ∈ dom (stages h) -> stages h' !! k = stages h !! k) /\ Forall2 (fun l l' => stages h' !! l' = stages h !! l) p p' /\ (forall k, k ∈ dom (stages h) -> k ∈ dom (stages h')).
Proof.
  induction p as [|l p IH]; intros h F; cbn; [repeat split; try constructor; done|]. inversion_clear F as [|? ? F1 F2]. pose proof (copy_stage_spec h l F1) as C. destruct (copy_stage h l) as [h1 l'].
  destruct C as (C1 & C2 & C3 & C4 & C5). specialize (IH h1). destruct (copy_stages h1 p) as [h2 p']. destruct IH as (A & B & C & D & E).
  { eapply Forall_impl; [exact F2|]. intros x X. cbn in X. rewrite C3. set_solver. }
  split; [congruence|]. split; [|split; [|split]].
  - constructor; [done|]. eapply Forall_impl; [exact B|]. intros x X. cbn in X. rewrite C3 in X. set_solver.
  - intros k K. rewrite C by (rewrite C3; set_solver). apply C5. intros ->. done.
  - constructor; [rewrite C by (rewrite C3; set_solver); done|]. clear -D C5 C2 F2. induction D as [|a b p p' D1 D2 IH]; constructor.
    + rewrite D1. apply C5. inversion_clear F2. intros ->. done.
    + apply IH. by inversion_clear F2.
  - intros k K. apply E. rewrite C3. set_solver.
Qed.
Scheme reads_ind2 := Induction for reads Sort Prop with reads_arg_ind2 := Induction for reads_arg Sort Prop with reads_all_ind2 := Induction for reads_all Sort Prop.
Lemma reads_cells h h' : cells h' = cells h -> forall c e, reads h c e -> reads h' c e.
Proof.
  intros E. apply (reads_ind2 h (fun c e _ => reads h' c e) (fun a o _ => reads_arg h' a o) (fun l es _ => reads_all h' l es)).
  - intros. by constructor.
  - intros. by constructor.
  - constructor.
  - intros. econstructor; [by rewrite E|done].
  - constructor.
  - intros. econstructor; [by rewrite E|done..].
Qed.
Lemma psteps_stage ws : forall h, (forall w, w ∈ ws -> exists l s, w = WStage l s) -> cells (foldl pstep h ws) = cells h.
Proof. induction ws as [|w ws IH]; intros h H; [done|]. cbn. rewrite IH; [|intros x X; apply H; by right]. destruct (H w) as (l & s & ->); [left|done]. Qed.
(** The copy reads the same as the original, and writing the fields of the copy's
    stages leaves the original as it is. *)
Theorem C41_copy_partial : forall h p ss, reads_pipeline h p ss -> let '(h', p') := copy_stages h p in
  reads_pipeline h' p' ss /\ reads_pipeline h' p ss /\
  forall ws, (forall w, w ∈ ws -> exists l s, w = WStage l s /\ l ∈ p') -> reads_pipeline (foldl pstep h' ws) p ss.
Proof.
  intros h p ss R. assert (D : Forall (fun l => l ∈ dom (stages h)) p). { clear -R. induction R as [|l s p ss (c & E & _) R IH]; constructor; [|done]. apply elem_of_dom. eauto. }
  pose proof (copy_stages_spec p h D) as C. destruct (copy_stages h p) as [h' p']. destruct C as (C1 & C2 & C3 & C4 & _). split; [|split].
  - clear -R C1 C4. unfold reads_pipeline in *. revert p' C4. induction R as [|l s p ss (c & E & X) R IH]; intros p' C4; inversion_clear C4; constructor; [|auto]. exists c. split; [congruence|]. by apply (reads_cells h).
  - clear C2 C4. unfold reads_pipeline in *. induction R as [|l s p ss (c & E & X) R IH]; constructor.
    + exists c. split; [|by apply (reads_cells h)]. inversion_clear D. by rewrite C3.
    + apply IH. by inversion_clear D.
  - intros ws W. assert (X1 : cells (foldl pstep h' ws) = cells h). { rewrite psteps_stage; [done|]. intros w I. destruct (W w I) as (l & s & -> & _). eauto. }
    assert (X2 : forall k, k ∈ dom (stages h) -> stages (foldl pstep h' ws) !! k = stages h !! k).
    { intros k K. rewrite <- (C3 k K). clear -W C2 K. rewrite Forall_forall in C2. revert h'. induction ws as [|w ws IH]; intros h'; [done|]. cbn. rewrite IH; [|intros x X; apply W; by right].
      destruct (W w) as (l & s & -> & I); [left|]. cbn. rewrite lookup_insert_ne; [done|]. intros ->. by apply (C2 _ I). }
    clear -R D X1 X2. unfold reads_pipeline in *. induction R as [|l s p ss (c & E & X) R IH]; constructor.
    + exists c. split; [|by apply (reads_cells h)]. inversion_clear D. by rewrite X2.
    + apply IH. by inversion_clear D.
Qed.
Print Assumptions C41_copy_partial.
(** {"@select": {"@not": {"@bool": true}}} in memory *)
Definition mem : pheap := PHeap {[1%nat := Cell "@bool" None (JBool true) None]} {[5%nat := (KSelect, Cell "@not" (Some 1%nat) JNull None)]}.
Lemma mem_reads : reads_pipeline mem [5%nat] [Stage KSelect (op1 "@not" (boolE true))].
Proof. constructor; [|constructor]. eexists. split; [reflexivity|]. constructor. econstructor; [reflexivity|]. repeat constructor. Qed.
(** But the arguments are shared: writing behind the copy's pointer changes the
    original. *)
Theorem C41_copy_refuted : exists h p ss ss' w, reads_pipeline h p ss /\ (exists l c, w = WCell l c) /\ ss <> ss' /\ reads_pipeline (pstep (copy_stages h p).1 w) p ss'.
Proof.
  exists mem, [5%nat], [Stage KSelect (op1 "@not" (boolE true))], [Stage KSelect (op1 "@not" (boolE false))], (WCell 1%nat (Cell "@bool" None (JBool false) None)).
  split; [apply mem_reads|]. split; [eauto|]. split; [done|]. constructor; [|constructor].
  pose proof (copy_stage_spec mem 5) as C. cbn [copy_stages]. destruct (copy_stage mem 5) as [h l] eqn:E. destruct C as (C1 & C2 & _ & _ & C5). { by apply elem_of_dom. }
  cbn [fst pstep]. eexists. split.
  - cbn [stages st_kind]. rewrite C5; [reflexivity|]. intros <-. apply C2. by apply elem_of_dom.
  - constructor. econstructor; [cbn [cells]; apply lookup_insert|]. repeat constructor.
Qed.
Print Assumptions C41_copy_refuted.
