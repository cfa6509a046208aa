(** Proofs about evaluation. *)
From Verif Require Import JsonModel ObjModel JsonProofs ExprModel ExprSpec.
#[local] Open Scope Z_scope.

(** *** Induction *)
Section ind.
Variable P : expr -> Prop.
Hypothesis H : forall op arg l, (forall a, arg = Some a -> P a) -> (forall es, l = LList es -> Forall P es) ->
  (forall m, l = LMap m -> Forall (fun kv => P kv.2) m) -> P (Expr op arg l).
Fixpoint expr_all (e : expr) : P e.
Proof.
  destruct e as [op arg l].
  refine (H op arg l _ _ _).
  - destruct arg as [x|].
    + refine (fun a E => match E in _ = o return match o with Some b => P b | None => True end with eq_refl => expr_all x end).
    + intros a E. discriminate E.
  - destruct l as [v|es0|m].
    + intros es E. discriminate E.
    + refine (fun es E => match E in _ = l1 return match l1 with LList x => Forall P x | _ => True end with eq_refl => _ end).
      clear es E. revert es0. fix go 1. intros [|x r]; [apply List.Forall_nil|apply List.Forall_cons; [apply expr_all|apply go]].
    + intros es E. discriminate E.
  - destruct l as [v|es0|m0].
    + intros es E. discriminate E.
    + intros es E. discriminate E.
    + refine (fun es E => match E in _ = l1 return match l1 with LMap x => Forall (fun kv => P kv.2) x | _ => True end with eq_refl => _ end).
      clear es E. revert m0. fix go 1. intros [|[k x] r]; [apply List.Forall_nil|apply List.Forall_cons; [apply expr_all|apply go]].
Qed.
End ind.

(** *** Agreement of results *)
Definition agree {A} (P : Prop) (r1 r2 : res A) : Prop :=
  match r1, r2 with
  | Val a, Val b => a = b
  | Err, Err | Panic, Panic => True
  | Err, Panic | Panic, Err => P
  | _, _ => False
  end.
Lemma agree_refl {A} P (r : res A) : agree P r r.
Proof. by destruct r. Qed.
Lemma agree_bind {A B} P (r1 r2 : res A) (f g : A -> res B) : agree P r1 r2 -> (forall v, agree P (f v) (g v)) -> agree P (rbind r1 f) (rbind r2 g).
Proof. intros H1 H2. destruct r1, r2; cbn in *; try done. subst. apply H2. Qed.
Lemma agree_eq {A} (r1 r2 : res A) : agree False r1 r2 <-> r1 = r2.
Proof. destruct r1, r2; cbn; split; try done; congruence. Qed.
Lemma agree_bind_fail {A B} (r1 r2 : res A) (f : A -> res B) : agree True r1 Err -> agree True (rbind r1 f) Err.
Proof. by destruct r1. Qed.

Definition crel (P : Prop) (f g : clo) : Prop := forall ctx, agree P (f ctx) (g ctx).
Definition orel {A} (R : A -> A -> Prop) (a b : option A) : Prop := match a, b with Some x, Some y => R x y | None, None => True | _, _ => False end.
Record prel (P : Prop) (p q : parts) : Prop := {
  pr_arg : orel (crel P) (p_arg p) (p_arg q);
  pr_args : orel (orel (Forall2 (crel P))) (p_args p) (p_args q);
  pr_pairs : orel (orel (Forall2 (orel (Forall2 (crel P))))) (p_pairs p) (p_pairs q);
  pr_val : p_val p = p_val q;
  pr_list : orel (Forall2 (crel P)) (p_list p) (p_list q);
  pr_map : orel (Forall2 (fun a b => a.1 = b.1 /\ crel P a.2 b.2)) (p_map p) (p_map q) }.

Section agree.
Context {FF : FloatFmt} {EE : ExprEnv}.
Variable P : Prop.
Lemma test_agree f g ctx : crel P f g -> agree P (test f ctx) (test g ctx).
Proof. intros H. apply agree_bind; [apply H|]. intros v. apply agree_refl. Qed.
Lemma with_args_agree {A B} (R : A -> A -> Prop) (a b : option (option A)) (k1 k2 : A -> res B) :
  orel (orel R) a b -> (forall x y, R x y -> agree P (k1 x) (k2 y)) -> agree P (with_args a k1) (with_args b k2).
Proof. destruct a as [[a|]|], b as [[b|]|]; cbn; try done. intros H K. by apply K. Qed.
Lemma junction_agree stop fs gs ctx : Forall2 (crel P) fs gs -> agree P (junction stop fs ctx) (junction stop gs ctx).
Proof.
  induction 1 as [|f g fs gs H1 H2 IH]; cbn; [done|]. apply agree_bind; [by apply test_agree|]. intros b. by destruct (Bool.eqb b stop).
Qed.
Lemma on_list_agree {A} ctx g h (k1 k2 : list json -> res A) : crel P g h -> (forall l, agree P (k1 l) (k2 l)) -> agree P (on_list ctx g k1) (on_list ctx h k2).
Proof. intros H K. unfold on_list. apply agree_bind; [apply H|]. intros v. apply agree_bind; [apply agree_refl|done]. Qed.
Lemma filter_agree f g ctx l : crel P f g -> agree P (filter_loop f ctx l) (filter_loop g ctx l).
Proof.
  intros H. induction l as [|x l IH]; cbn; [done|]. apply agree_bind; [by apply test_agree|]. intros b. apply agree_bind; [done|]. intros r. apply agree_refl.
Qed.
Lemma map_agree f g ctx l : crel P f g -> agree P (map_loop f ctx l) (map_loop g ctx l).
Proof.
  intros H. induction l as [|x l IH]; cbn; [done|]. apply agree_bind; [apply H|]. intros b. apply agree_bind; [done|]. intros r. apply agree_refl.
Qed.
Lemma quant_agree a b c f g ctx l : crel P f g -> agree P (quant_loop a b c f ctx l) (quant_loop a b c g ctx l).
Proof.
  intros H. induction l as [|x l IH]; cbn; [done|]. apply agree_bind; [by apply test_agree|]. intros v. by destruct (Bool.eqb v b).
Qed.
Lemma list_agree fs gs ctx : Forall2 (crel P) fs gs -> agree P (list_loop fs ctx) (list_loop gs ctx).
Proof.
  induction 1 as [|f g fs gs H1 H2 IH]; cbn; [done|]. apply agree_bind; [apply H1|]. intros b. apply agree_bind; [done|]. intros r. apply agree_refl.
Qed.
Lemma switch_agree ps qs ctx : Forall2 (orel (Forall2 (crel P))) ps qs -> agree P (switch_loop ps ctx) (switch_loop qs ctx).
Proof.
  induction 1 as [|p q ps qs H1 H2 IH]; cbn; [done|]. destruct p as [fs|], q as [gs|]; cbn in H1; try done.
  destruct H1 as [|f g fs gs F1 H1]; [done|]. destruct H1 as [|f2 g2 fs gs F2 H1]; [done|]. destruct H1; [|done].
  apply agree_bind; [by apply test_agree|]. intros b. destruct b; [apply F2|done].
Qed.
Lemma dict_agree m1 m2 ctx : Forall2 (fun a b => a.1 = b.1 /\ crel P a.2 b.2) m1 m2 -> forall acc, agree P (dict_loop m1 ctx acc) (dict_loop m2 ctx acc).
Proof.
  induction 1 as [|[k1 f1] [k2 f2] m1 m2 [E F] H IH]; intros acc; cbn in *; [done|]. subst k2. apply agree_bind; [apply F|]. intros v.
  apply agree_bind; [apply agree_refl|]. intros a. apply IH.
Qed.
End agree.

Section node.
Context {FF : FloatFmt} {EE : ExprEnv}.
Variable P : Prop.
Variables it1 it2 : list string -> list string.
Notation N1 := (eval_node (EE := with_order EE it1)).
Notation N2 := (eval_node (EE := with_order EE it2)).
Lemma node_agree op p q ctx : prel P p q ->
  (op = "@dict"%string -> forall m n, p_map p = Some m -> p_map q = Some n ->
     agree P (dict_loop (EE := with_order EE it1) (in_order (EE := with_order EE it1) m) ctx []) (dict_loop (EE := with_order EE it2) (in_order (EE := with_order EE it2) n) ctx [])) ->
  agree P (N1 op p ctx) (N2 op q ctx).
Proof.
  intros [A1 A2 A3 A4 A5 A6] HD. unfold eval_node. rewrite A4. change (@opcode_of FF (with_order EE it2)) with (@opcode_of FF (with_order EE it1)).
  assert (AO : agree P match p_arg p with Some f => f ctx | None => Val (p_val q) end match p_arg q with Some f => f ctx | None => Val (p_val q) end).
  { destruct (p_arg p), (p_arg q); cbn in A1; try done; apply A1. }
  assert (AQ : forall a b c, agree P
    (with_args (p_args p) (fun fs => match fs with [f; g] => on_list ctx g (quant_loop a b c f ctx) | _ => Err end))
    (with_args (p_args q) (fun fs => match fs with [f; g] => on_list ctx g (quant_loop a b c f ctx) | _ => Err end))).
  { intros a b c. eapply with_args_agree; [exact A2|]. intros fs gs H. destruct H as [|f g fs gs F1 H1]; [done|]. destruct H1 as [|f2 g2 fs gs F2 H1]; [done|]. destruct H1; [|done].
    apply on_list_agree; [done|]. intros l. by apply quant_agree. }
  destruct (@opcode_of FF (with_order EE it1) op) eqn:OC.
  - apply agree_bind; [exact AO|]. intros v. apply agree_refl.
  - apply agree_bind; [exact AO|]. intros v. apply agree_refl.
  - apply agree_bind; [exact AO|]. intros v. apply agree_refl.
  - apply agree_bind; [exact AO|]. intros v. apply agree_refl.
  - apply agree_bind; [|intros; apply agree_refl]. destruct (p_arg p), (p_arg q); cbn in A1; try done.
    + apply agree_bind; [apply A1|]. intros; apply agree_refl.
    + destruct (p_list p), (p_list q); cbn in A5; try done. by apply list_agree.
  - destruct (p_arg p), (p_arg q); cbn in A1; try done.
    + apply agree_bind; [apply A1|]. intros; apply agree_refl.
    + destruct (p_map p) as [m|], (p_map q) as [n|]; cbn in A6; try done. apply agree_bind; [|intros; apply agree_refl]. apply HD; try done.
      unfold opcode_of in OC. destruct op as [|c s]; [done|]. destruct (assoc (String c s) special_ops) as [o|] eqn:AS.
      * subst o. unfold assoc in AS. destruct (List.find _ _) as [[k o]|] eqn:F; [|done]. cbn in AS. injection AS as ->. apply find_some in F. destruct F as [F1 F2].
        apply String.eqb_eq in F2. cbn in F2. subst k. unfold special_ops in F1. repeat (destruct F1 as [F1|F1]; [injection F1; intros; subst; try done|]). done.
      * destruct (assoc _ unary_ops); [done|]. by destruct (at_sign _).
  - done.
  - eapply with_args_agree; [exact A2|]. intros fs gs H. destruct H as [|f g fs gs F1 H1]; [done|]. destruct H1 as [|f2 g2 fs gs F2 H1]; [done|].
    destruct H1 as [|f3 g3 fs gs F3 H1]; cbn.
    + apply agree_bind; [by apply test_agree|]. intros b. destruct b; [apply F2|done].
    + destruct H1; [|done]. apply agree_bind; [by apply test_agree|]. intros b. destruct b; [apply F2|apply F3].
  - eapply with_args_agree; [exact A2|]. intros fs gs H. destruct H as [|f g fs gs F1 H1]; [done|]. destruct H1 as [|f2 g2 fs gs F2 H1]; [done|]. destruct H1; [|done].
    apply agree_bind; [apply F1|]. intros v. destruct (is_null v); [apply F2|done].
  - eapply with_args_agree; [exact A3|]. intros ps qs H. unfold op_switch. destruct H as [|p0 q0 ps qs H1 H2]; [done|]. apply switch_agree. by constructor.
  - eapply with_args_agree; [exact A2|]. intros fs gs H. by apply junction_agree.
  - eapply with_args_agree; [exact A2|]. intros fs gs H. by apply junction_agree.
  - eapply with_args_agree; [exact A2|]. intros fs gs H. destruct H as [|f g fs gs F1 H1]; [done|]. destruct H1 as [|f2 g2 fs gs F2 H1]; [done|]. destruct H1; [|done].
    apply on_list_agree; [done|]. intros l. apply agree_bind; [by apply filter_agree|]. intros; apply agree_refl.
  - apply AQ. - apply AQ. - apply AQ.
  - eapply with_args_agree; [exact A2|]. intros fs gs H. destruct H as [|f g fs gs F1 H1]; [done|]. destruct H1 as [|f2 g2 fs gs F2 H1]; [done|].
    apply on_list_agree; [done|]. intros l. apply agree_bind; [by apply map_agree|]. intros; apply agree_refl.
  - destruct (p_arg p), (p_arg q); cbn in A1; try done. apply agree_bind; [apply A1|]. intros; apply agree_refl.
  - destruct (p_arg p), (p_arg q); cbn in A1; try done. apply agree_bind; [apply A1|]. intros; apply agree_refl.
  - destruct (p_arg p), (p_arg q); cbn in A1; try done. apply agree_bind; [apply A1|]. intros; apply agree_refl.
  - done.
Qed.
End node.
