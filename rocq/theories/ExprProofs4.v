(** Proofs about evaluation: panics. *)
From Verif Require Import JsonModel ObjModel JsonProofs ExprModel ExprSpec ExprProofs ExprProofs2.
#[local] Open Scope Z_scope.
Section np.
Context {FF : FloatFmt} {EE : ExprEnv}.
Definition np (f : clo) : Prop := forall ctx, f ctx <> Panic.
Definition nps (o : option (list clo)) : Prop := forall fs, o = Some fs -> Forall np fs.
Record safe (e : expr) : Prop := {
  sf_eval : np (eval e);
  sf_args : nps (exp_list eval e);
  sf_pairs : forall ps, exp_list (exp_list eval) e = Some ps -> Forall nps ps }.
Lemma rbind_np {A B} (r : res A) (f : A -> res B) : r <> Panic -> (forall v, f v <> Panic) -> rbind r f <> Panic.
Proof. destruct r; cbn; auto. Qed.
Lemma or_err_np {A} (o : option A) : or_err o <> Panic.
Proof. by destruct o. Qed.
Lemma get_raw_np q d : get_raw q d <> Panic.
Proof. unfold get_raw. by destruct (jp_get q d) as [[|]|]. Qed.
Lemma get_path_np ctx k : get_path ctx k <> Panic.
Proof.
  unfold get_path. destruct k as [|c k]; [done|]. case_decide; [|done]. match goal with |- context [match ?k with _ => _ end] => destruct k as [|c1 [|c2 k2]] end; try apply get_raw_np.
  destruct (_ && _); apply get_raw_np.
Qed.
Lemma set_path_np ctx k v d : set_path ctx k v d <> Panic.
Proof.
  unfold set_path. destruct k as [|c k]; [done|]. apply rbind_np; [destruct v; try done; apply get_path_np|]. intros w. case_decide; [by destruct w|]. case_decide; [|done].
  by destruct (jp_set _ _ _) as [[]|].
Qed.
Lemma test_np f ctx : np f -> test f ctx <> Panic.
Proof. intros H. apply rbind_np; [apply H|]. intros. apply or_err_np. Qed.
Lemma junction_np stop fs ctx : Forall np fs -> junction stop fs ctx <> Panic.
Proof. induction 1 as [|f fs H1 H2 IH]; cbn; [done|]. apply rbind_np; [by apply test_np|]. intros b. by destruct (Bool.eqb b stop). Qed.
Lemma switch_np ps ctx : Forall nps ps -> switch_loop ps ctx <> Panic.
Proof.
  induction 1 as [|p ps H1 H2 IH]; cbn; [done|]. destruct p as [[|f [|g [|]]]|]; try done. specialize (H1 _ eq_refl). inversion_clear H1 as [|? ? F1 F2]. inversion_clear F2.
  apply rbind_np; [by apply test_np|]. intros b. destruct b; [auto|done].
Qed.
Lemma filter_np f ctx l : np f -> filter_loop f ctx l <> Panic.
Proof. intros H. induction l; cbn; [done|]. apply rbind_np; [by apply test_np|]. intros b. by apply rbind_np. Qed.
Lemma map_np f ctx l : np f -> map_loop f ctx l <> Panic.
Proof. intros H. induction l; cbn; [done|]. apply rbind_np; [apply H|]. intros b. by apply rbind_np. Qed.
Lemma quant_np a b c f ctx l : np f -> quant_loop a b c f ctx l <> Panic.
Proof. intros H. induction l; cbn; [done|]. apply rbind_np; [by apply test_np|]. intros v. by destruct (Bool.eqb v b). Qed.
Lemma list_np fs ctx : Forall np fs -> list_loop fs ctx <> Panic.
Proof. induction 1 as [|f fs H1 H2 IH]; cbn; [done|]. apply rbind_np; [apply H1|]. intros v. by apply rbind_np. Qed.
Lemma dict_np m ctx : Forall (fun kf : string * clo => np kf.2) m -> forall acc, dict_loop m ctx acc <> Panic.
Proof. induction 1 as [|[k f] m H1 H2 IH]; intros acc; cbn; [done|]. apply rbind_np; [apply H1|]. intros v. apply rbind_np; [apply set_path_np|]. intros a. apply IH. Qed.
Lemma on_list_np {A} ctx g (k : list json -> res A) : np g -> (forall l, k l <> Panic) -> on_list ctx g k <> Panic.
Proof. intros H K. apply rbind_np; [apply H|]. intros v. apply rbind_np; [apply or_err_np|done]. Qed.
Lemma in_order_all {A} (R : string * A -> Prop) (m : list (string * A)) : Forall R m -> Forall R (in_order m).
Proof.
  intros F. unfold in_order. apply Forall_forall. intros x X. apply elem_of_list_omap in X. destruct X as (k & _ & X). apply find_some in X. destruct X as [X _].
  rewrite Forall_forall in F. apply F. by apply elem_of_list_In.
Qed.
Lemma unary_np op f v : assoc op unary_ops = Some f -> op ∉ ["@rnd"; "@range"]%string -> f v <> Panic.
Proof.
  unfold assoc. destruct (List.find _ _) as [[k g]|] eqn:F; [|done]. intros E N. cbn in E. injection E as <-. apply find_some in F. destruct F as [F1 F2].
  apply String.eqb_eq in F2. cbn in F2. subst k. unfold unary_ops in F1.
  repeat (destruct F1 as [F1|F1]; [injection F1; clear F1; intros <- <-|]); try done.
  all: try (by destruct v).
  all: try (unfold cmp_op, arith_op; by destruct (as_pair v) as [[]|]).
  all: try (unfold float_op; by destruct (as_float v)).
  all: try (unfold best_op; by destruct (as_nums v) as [[[]|[]]|]).
  all: try (exfalso; apply N; set_solver).
  - unfold op_eq. by destruct (as_list v) as [[|? [|? [|]]]|].
  - unfold op_selector. destruct (as_list v) as [[|s [|l [|]]]|]; try done. destruct (_ || _); [done|]. destruct s, l; try done. by destruct (match_labels _ _).
  - unfold op_div. destruct (as_list v) as [[|s [|l [|]]]|]; try done. by destruct (as_num s), (as_num l).
  - unfold op_sum. by destruct (as_nums v) as [[]|].
  - unfold op_in. destruct (as_list v) as [[|s [|l [|]]]|]; try done. by destruct (as_list l).
  - unfold op_concat. by destruct (as_list_of as_string v).
  - unfold op_hash. by destruct (enc v).
Qed.
Lemma special_cases op o : assoc op special_ops = Some o -> (op, o) ∈ special_ops.
Proof.
  unfold assoc. destruct (List.find _ _) as [[k g]|] eqn:F; [|done]. intros E. cbn in E. injection E as <-. apply find_some in F. destruct F as [F1 F2].
  apply String.eqb_eq in F2. cbn in F2. subst k. by apply elem_of_list_In.
Qed.
Lemma opcode_name op o : opcode_of op = o -> (exists f, o = OValue f /\ assoc op unary_ops = Some f) \/ o = OUnknown \/ o = OPlain \/ o = OEmpty \/ (op, o) ∈ special_ops.
Proof.
  intros <-. unfold opcode_of. destruct op as [|c s]; [auto|]. destruct (assoc (String c s) special_ops) as [o|] eqn:A.
  - right; right; right; right. by apply special_cases.
  - destruct (assoc (String c s) unary_ops) as [f|] eqn:B; [left; by exists f|]. destruct (at_sign _); auto.
Qed.
Lemma calm_safe e : calm e -> safe e.
Proof.
  induction e as [op arg l IHa IHl IHm] using expr_all. intros H. inversion_clear H as [? ? ? C1 C2 C3 CA CL CM].
  assert (SL : forall es, l = LList es -> Forall safe es).
  { intros es E. specialize (IHl es E). specialize (CL es E). clear -IHl CL. induction es; constructor; inversion_clear IHl; inversion_clear CL; auto. }
  assert (SM : forall m, l = LMap m -> Forall (fun kv => safe kv.2) m).
  { intros m E. specialize (IHm m E). specialize (CM m E). clear -IHm CM. induction m; constructor; inversion_clear IHm; inversion_clear CM; auto. }
  assert (HE : np (eval (Expr op arg l))).
  { intros ctx. rewrite eval_eq. unfold eval_node. cbn [parts_of p_arg p_args p_pairs p_val p_list p_map].
    assert (AO : match (match arg with Some a => Some (eval a) | None => None end) with Some f => f ctx | None => Val (match l with LVal v => v | _ => JNull end) end <> Panic).
    { destruct arg as [a|]; [|done]. by apply IHa; [|apply CA]. }
    assert (AS : op ∈ loop_ops -> exists a, arg = Some a /\ safe a).
    { intros I. destruct arg as [a|]; [|by destruct (C1 I)]. exists a. split; [done|]. by apply IHa; [|apply CA]. }
    destruct (opcode_name op _ eq_refl) as [(f & -> & U)|[->|[->|[->|SO]]]].
    - destruct arg as [a|]; [|done]. apply rbind_np; [by apply IHa; [|apply CA]|]. intros v. by apply (unary_np op).
    - destruct arg as [a|]; [|done]. apply rbind_np; [by apply IHa; [|apply CA]|]. done.
    - destruct arg as [a|]; [|done]. apply rbind_np; [by apply IHa; [|apply CA]|]. done.
    - done.
    - remember (opcode_of op) as o eqn:EO. unfold special_ops in SO.
      assert (Q : op ∈ loop_ops -> forall start stop final, with_args (match arg with Some a => Some (exp_list eval a) | None => None end)
        (fun fs => match fs with [f; g] => on_list ctx g (quant_loop start stop final f ctx) | _ => Err end) <> Panic).
      { intros I. destruct (AS I) as (a & -> & S). intros s1 s2 s3. cbn [with_args]. destruct (exp_list eval a) as [fs|] eqn:EL; [|done]. pose proof (sf_args _ S _ EL) as F.
        destruct fs as [|f [|g [|]]]; try done. inversion_clear F as [|? ? F1 F2]. inversion_clear F2. apply on_list_np; [done|]. intros l0. by apply quant_np. }
      repeat (apply elem_of_cons in SO; destruct SO as [SO|SO]; [injection SO as -> ->; clear EO|]); [..|by apply elem_of_nil in SO].
      + apply rbind_np; [done|]. intros. apply or_err_np.
      + apply rbind_np; [done|]. intros. apply or_err_np.
      + apply rbind_np; [done|]. intros. apply or_err_np.
      + apply rbind_np; [done|]. intros. apply rbind_np; [apply or_err_np|]. intros. apply rbind_np; [apply get_path_np|]. done.
      + apply rbind_np; [|done]. destruct arg as [a|].
        * apply rbind_np; [by apply IHa; [|apply CA]|]. intros. apply or_err_np.
        * destruct l as [|es|]; try done. apply list_np. specialize (SL es eq_refl). clear -SL. induction SL as [|e es H _ IH]; constructor; [apply H|done].
      + destruct arg as [a|].
        * apply rbind_np; [by apply IHa; [|apply CA]|]. intros v. by destruct v.
        * destruct l as [| |m]; try done. apply rbind_np; [|done]. apply dict_np, in_order_all. specialize (SM m eq_refl). clear -SM. induction SM as [|e es H _ IH]; constructor; [apply H|done].
      + done.
      + destruct AS as (a & -> & S); [set_solver|]. cbn [with_args]. destruct (exp_list eval a) as [fs|] eqn:EL; [|done]. pose proof (sf_args _ S _ EL) as F.
        destruct fs as [|f [|g [|h [|]]]]; try done; inversion_clear F as [|? ? F1 F2]; inversion_clear F2 as [|? ? F3 F4]; cbn.
        * apply rbind_np; [by apply test_np|]. intros b. destruct b; [apply F3|done].
        * inversion_clear F4. apply rbind_np; [by apply test_np|]. intros b. destruct b; auto.
      + destruct AS as (a & -> & S); [set_solver|]. cbn [with_args]. destruct (exp_list eval a) as [fs|] eqn:EL; [|done]. pose proof (sf_args _ S _ EL) as F.
        destruct fs as [|f [|g [|]]]; try done; inversion_clear F as [|? ? F1 F2]; inversion_clear F2 as [|? ? F3 F4]; cbn. apply rbind_np; [apply F1|]. intros v. destruct (is_null v); [apply F3|done].
      + destruct AS as (a & -> & S); [set_solver|]. cbn [with_args]. destruct (exp_list (fun p => exp_list eval p) a) as [ps|] eqn:EL; [|done]. pose proof (sf_pairs _ S _ EL) as F.
        unfold op_switch. destruct ps; [done|]. by apply switch_np.
      + destruct AS as (a & -> & S); [set_solver|]. cbn [with_args]. destruct (exp_list eval a) as [fs|] eqn:EL; [|done]. apply junction_np. exact (sf_args _ S _ EL).
      + destruct AS as (a & -> & S); [set_solver|]. cbn [with_args]. destruct (exp_list eval a) as [fs|] eqn:EL; [|done]. apply junction_np. exact (sf_args _ S _ EL).
      + destruct AS as (a & -> & S); [set_solver|]. cbn [with_args]. destruct (exp_list eval a) as [fs|] eqn:EL; [|done]. pose proof (sf_args _ S _ EL) as F.
        destruct fs as [|f [|g [|]]]; try done. inversion_clear F as [|? ? F1 F2]. inversion_clear F2. apply on_list_np; [done|]. intros l0. apply rbind_np; [by apply filter_np|done].
      + apply Q. set_solver. + apply Q. set_solver. + apply Q. set_solver.
      + destruct AS as (a & -> & S); [set_solver|]. destruct (C3 eq_refl) as (a0 & e1 & e2 & es & E). injection E as ->. cbn [with_args].
        destruct (exp_list eval (Expr "@list" a0 (LList (e1 :: e2 :: es)))) as [fs|] eqn:EL; [|done]. pose proof (sf_args _ S _ EL) as F.
        cbn [exp_list] in EL. rewrite decide_True in EL by done. injection EL as <-. cbn [map] in F |- *. inversion_clear F as [|? ? F1 F2]. inversion_clear F2 as [|? ? F3 F4].
        apply on_list_np; [done|]. intros l0. apply rbind_np; [by apply map_np|done]. }
  assert (HA : nps (exp_list eval (Expr op arg l))).
  { destruct (decide (op = "@list"%string)) as [->|N].
    - cbn [exp_list]. rewrite decide_True by done. destruct l as [|es|]; try done. intros fs E. injection E as <-. specialize (SL es eq_refl). clear -SL.
      induction SL as [|e es H _ IH]; constructor; [apply H|done].
    - rewrite exp_list_other by done. intros fs E. injection E as <-. constructor; [done|constructor]. }
  split; [done..|]. destruct (decide (op = "@list"%string)) as [->|N].
  - cbn [exp_list]. rewrite decide_True by done. destruct l as [|es|]; try done. intros fs E. injection E as <-. specialize (SL es eq_refl). clear -SL.
    induction SL as [|e es H _ IH]; constructor; [apply H|done].
  - rewrite exp_list_other by done. intros fs E. injection E as <-. constructor; [done|constructor].
Qed.
End np.
