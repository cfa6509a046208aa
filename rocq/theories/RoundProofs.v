(** Proofs about the way of expressions through JSON. *)
From Verif Require Import JsonModel ObjModel JsonProofs ExprModel ExprSpec ExprProofs ExprProofs2.
#[local] Open Scope Z_scope.
Section round.
Context {FF : FloatFmt} {EE : ExprEnv}.

Lemma marshal_wrapped op a l : at_sign op = true -> op ∉ ["@any"; "@list"; "@dict"]%string -> marshal (Expr op (Some a) l) = (j ← marshal a; Some (JMap [(op, j)])).
Proof.
  intros A N. destruct op as [|c s]; [done|]. cbn [marshal].
  rewrite (decide_False (P := String c s = "@any"%string)) by set_solver. do 4 (case_decide; [done|]). rewrite (decide_False (P := String c s = "@list"%string)) by set_solver.
  rewrite (decide_False (P := String c s = "@dict"%string)) by set_solver. by rewrite A.
Qed.
Fixpoint marshals (es : list expr) : option (list json) := match es with [] => Some [] | e :: l => j ← marshal e; js ← marshals l; Some (j :: js) end.
Fixpoint marshal_map (m : list (string * expr)) : option jobj := match m with [] => Some [] | (k, e) :: m => j ← marshal e; js ← marshal_map m; Some ((k, j) :: js) end.
Lemma marshal_list es : marshal (Expr "@list" None (LList es)) = JList <$> marshals es.
Proof. change (marshal (Expr "@list" None (LList es))) with (js ← marshals es; Some (JList js)). by destruct (marshals es). Qed.
Lemma marshal_dict m : marshal (Expr "@dict" None (LMap m)) = JMap <$> marshal_map m.
Proof. change (marshal (Expr "@dict" None (LMap m))) with (js ← marshal_map m; Some (JMap js)). by destruct (marshal_map m). Qed.
Fixpoint unmarshals (l : list json) : res (list expr) := match l with [] => Val [] | j :: l => rbind (unmarshal j) (fun e => rbind (unmarshals l) (fun es => Val (e :: es))) end.
Fixpoint unmarshal_map (m : jobj) : res (list (string * expr)) := match m with [] => Val [] | (k, j) :: m => rbind (unmarshal j) (fun e => rbind (unmarshal_map m) (fun es => Val ((k, e) :: es))) end.
Lemma unmarshal_list l : unmarshal (JList l) = rbind (unmarshals l) (fun es => Val (Expr "@list" None (LList es))).
Proof. done. Qed.
Definition of_map (es : list (string * expr)) : res expr :=
  match es with
  | [(EmptyString, _)] => Panic
  | [(k, e)] => if at_sign k then Val (Expr k (Some e) (LVal JNull)) else Val (Expr "@dict" None (LMap es))
  | _ => Val (Expr "@dict" None (LMap es))
  end.
Lemma unmarshal_obj m : unmarshal (JMap m) = rbind (unmarshal_map m) of_map.
Proof. done. Qed.
Lemma of_map_dict es : map_ok es -> of_map es = Val (Expr "@dict" None (LMap es)).
Proof. destruct es as [|[k e] [|]]; try done; [|by destruct k]. intros [N A]. destruct k as [|c s]; [done|]. cbn [of_map]. by rewrite A. Qed.

Lemma sim_scalar (it : list string -> list string) op v w : op <> "@list"%string -> (forall ctx, eval (EE := with_order EE it) (Expr op None (LVal v)) ctx = eval (EE := with_order EE it) (Expr op None (LVal w)) ctx) ->
  similar False it it (Expr op None (LVal v)) (Expr op None (LVal w)).
Proof.
  intros N H. assert (C : crel False (eval (EE := with_order EE it) (Expr op None (LVal v))) (eval (EE := with_order EE it) (Expr op None (LVal w)))). { intros ctx. by apply agree_eq. }
  apply similar_lists; try done. intros _. rewrite !exp_list_other by done. constructor; [done|constructor].
Qed.
Definition it0 : list string -> list string := @iterate EE.
Lemma portable_round e : portable e -> exists j e', marshal e = Some j /\ unmarshal j = Val e' /\ similar False it0 it0 e e'.
Proof.
  induction e as [op arg l IHa IHl IHm] using expr_all. intros P. inversion P as [b|v n H|v f t H1 H2 H3|v s H1 H2|es H|m H1 H2|op' a l' H1 H2 H3|l']; subst; clear P.
  - exists (JBool b), (scalar_expr "@bool" (JBool b)). split; [done|]. split; [done|]. by apply sim_scalar.
  - exists (JInt n), (scalar_expr "@int" (JInt n)). split; [|split; [done|]].
    + change (marshal (Expr "@int" None (LVal v))) with (n ← as_int v; Some (JInt n)). by rewrite H.
    + apply sim_scalar; [done|]. intros ctx. change (or_err (JInt <$> as_int v) = Val (JInt n)). by rewrite H.
  - exists (JFloat f), (scalar_expr "@float" (JFloat f)). split; [|split; [done|]].
    + change (marshal (Expr "@float" None (LVal v))) with (f ← as_float v; float_token f). rewrite H1. cbn. unfold float_token. by rewrite H2, H3.
    + apply sim_scalar; [done|]. intros ctx. change (or_err (JFloat <$> as_float v) = Val (JFloat f)). by rewrite H1.
  - exists (JStr s), (scalar_expr "@string" (JStr s)). split; [|split].
    + change (marshal (Expr "@string" None (LVal v))) with (s ← as_string v; Some (JStr s)). by rewrite H1.
    + by destruct s.
    + apply sim_scalar; [done|]. intros ctx.
      change (eval (EE := with_order EE it0) (Expr "@string" None (LVal v)) ctx) with (rbind (or_err (as_string v)) (fun s => rbind (get_path ctx s) (fun v => Val (if is_str "@now" v then JStr now else v)))).
      by rewrite H1.
  - specialize (IHl es eq_refl). clear IHa IHm.
    assert (X : exists js es', marshals es = Some js /\ unmarshals js = Val es' /\ Forall2 (similar False it0 it0) es es').
    { induction es as [|e es IH]; [by exists [], []|]. inversion_clear IHl as [|? ? I1 I2]. inversion_clear H as [|? ? G1 G2]. destruct (I1 G1) as (j & e' & A & B & C).
      destruct (IH I2 G2) as (js & es' & A' & B' & C'). exists (j :: js), (e' :: es'). cbn [marshals unmarshals]. rewrite A, B. cbn. rewrite A', B'. cbn. split; [done|]. split; [done|by constructor]. }
    destruct X as (js & es' & A & B & C). exists (JList js), (Expr "@list" None (LList es')). rewrite marshal_list, A, unmarshal_list, B. split; [done|]. split; [done|]. by apply similar_node.
  - specialize (IHm m eq_refl). clear IHa IHl.
    assert (X : exists js es', marshal_map m = Some js /\ unmarshal_map js = Val es' /\ Forall2 (fun a b => a.1 = b.1 /\ similar False it0 it0 a.2 b.2) m es').
    { clear H2. induction m as [|[k e] m IH]; [by exists [], []|]. inversion_clear IHm as [|? ? I1 I2]. inversion_clear H1 as [|? ? G1 G2]. destruct (I1 G1) as (j & e' & A & B & C).
      destruct (IH I2 G2) as (js & es' & A' & B' & C'). exists ((k, j) :: js), ((k, e') :: es'). cbn [marshal_map unmarshal_map]. cbn [snd] in A. rewrite A, B. cbn. rewrite A', B'. cbn. split; [done|]. split; [done|by constructor]. }
    destruct X as (js & es' & A & B & C). exists (JMap js), (Expr "@dict" None (LMap es')). rewrite marshal_dict, A, unmarshal_obj, B. split; [done|]. split.
    + cbn [rbind]. apply of_map_dict. destruct C as [|[k e] [k' e'] m es' [E _] C]; [done|]. destruct C; [|done]. cbn in E. by subst k'.
    + apply similar_node; [done|done|]. intros _ ctx m0 n0 E1 E2. injection E1 as <-. injection E2 as <-. apply (dict_agree (EE := with_order EE it0)). 
      apply (similar_map False it0 it0) in C. revert C. generalize (map (fun kv : string * expr => (kv.1, eval (EE := with_order EE it0) kv.2)) m). generalize (map (fun kv : string * expr => (kv.1, eval (EE := with_order EE it0) kv.2)) es').
      intros y x C. unfold in_order. assert (K : map fst x = map fst y). { clear -C. induction C as [|a b x y [E _] C IH]; [done|]. cbn. by rewrite E, IH. }
      rewrite K. induction (iterate (map fst y)) as [|k ks IH]; [constructor|]. cbn.
      assert (F : match List.find (fun kv : string * clo => String.eqb kv.1 k) x, List.find (fun kv : string * clo => String.eqb kv.1 k) y with Some a, Some b => a.1 = b.1 /\ crel False a.2 b.2 | None, None => True | _, _ => False end).
      { clear -C. induction C as [|a b x y [E F] C IH]; [done|]. cbn. rewrite E. destruct (String.eqb b.1 k); done. }
      destruct (List.find _ x), (List.find _ y); try done. by constructor.
  - destruct (IHa a eq_refl H1) as (j & e' & A & B & C). exists (JMap [(op, j)]), (Expr op (Some e') (LVal JNull)). split; [|split].
    + rewrite marshal_wrapped by done. by rewrite A.
    + rewrite unmarshal_obj. cbn [unmarshal_map]. rewrite B. cbn [rbind of_map]. destruct op; [done|]. by rewrite H2.
    + assert (S : similar False it0 it0 (Expr op (Some a) (LVal JNull)) (Expr op (Some e') (LVal JNull))). { apply similar_node; [done|done|]. intros -> ? ? ? ?. done. }
      assert (CR : crel False (eval (EE := with_order EE it0) (Expr op (Some a) l)) (eval (EE := with_order EE it0) (Expr op (Some e') (LVal JNull)))). { intros ctx. rewrite (eval_lit op a l (LVal JNull)). apply S. }
      apply similar_lists; try done; [cbn [ex_op]; intros ->; set_solver|]. intros N. rewrite !exp_list_other by done. constructor; [done|constructor].
  - exists (JMap [("@noop"%string, JNull)]), (Expr "@noop" (Some (scalar_expr "@bool" (JBool false))) (LVal JNull)). split; [done|]. split; [done|].
    apply similar_lists; try done. intros _. constructor; [|constructor]. done.
Qed.
End round.

Lemma similar_eval {FF : FloatFmt} {EE : ExprEnv} e e' : similar False (@iterate EE) (@iterate EE) e e' -> forall ctx, eval e' ctx = eval e ctx.
Proof. intros [C _ _] ctx. destruct EE. specialize (C ctx). apply agree_eq in C. done. Qed.

Section decoded.
Context {FF : FloatFmt} {EE : ExprEnv}.
Lemma null_false_list l : null_false (JList l) = JList (map null_false l).
Proof. done. Qed.
Lemma decoded_round j : portable_json j -> forall e, unmarshal j = Val e -> marshal e = Some (null_false j) /\ unmarshal (null_false j) = Val e.
Proof.
  induction j as [|b|n|f|s|l IH|m IH] using json_rect'; intros P e E.
  - injection E as <-. done.
  - injection E as <-. done.
  - injection E as <-. done.
  - injection E as <-. inversion_clear P as [| | |? t H1 H2| | |]. split; [|done]. change (float_token f = Some (JFloat f)). unfold float_token. by rewrite H1, H2.
  - inversion_clear P. destruct s; [done|]. injection E as <-. done.
  - inversion_clear P as [| | | | |? F|]. rewrite unmarshal_list in E. destruct (unmarshals l) as [es| |] eqn:U; [|done..]. injection E as <-.
    assert (X : marshals es = Some (map null_false l) /\ unmarshals (map null_false l) = Val es).
    { revert es U. induction l as [|j l IHl]; intros es U; cbn in U; [by injection U as <-|]. inversion_clear IH as [|? ? I1 I2]. inversion_clear F as [|? ? F1 F2].
      destruct (unmarshal j) as [e| |] eqn:U1; [|done..]. cbn in U. destruct (unmarshals l) as [es'| |] eqn:U2; [|done..]. injection U as <-. destruct (I1 F1 e eq_refl) as [A B].
      destruct (IHl I2 F2 es' eq_refl) as [A' B']. cbn [marshals unmarshals map]. rewrite A, B. cbn. rewrite A', B'. done. }
    destruct X as [A B]. rewrite marshal_list, A. change (null_false (JList l)) with (JList (map null_false l)). rewrite unmarshal_list, B. done.
  - inversion_clear P as [| | | | | |? F N1 N2]. rewrite unmarshal_obj in E. destruct (unmarshal_map m) as [es| |] eqn:U; [|done..]. cbn [rbind] in E.
    assert (X : marshal_map es = Some (map (fun kv => (kv.1, null_false kv.2)) m) /\ unmarshal_map (map (fun kv => (kv.1, null_false kv.2)) m) = Val es).
    { clear E N1 N2. revert es U. induction m as [|[k j] m IHl]; intros es U; cbn in U; [by injection U as <-|]. inversion_clear IH as [|? ? I1 I2]. inversion_clear F as [|? ? F1 F2].
      destruct (unmarshal j) as [e'| |] eqn:U1; [|done..]. cbn in U. destruct (unmarshal_map m) as [es'| |] eqn:U2; [|done..]. injection U as <-. destruct (I1 F1 e' U1) as [A B].
      destruct (IHl I2 F2 es' eq_refl) as [A' B']. cbn [marshal_map unmarshal_map map fst snd]. cbn [snd] in A, B. rewrite A, B. cbn. rewrite A', B'. done. }
    destruct X as [A B]. change (null_false (JMap m)) with (JMap (map (fun kv => (kv.1, null_false kv.2)) m)). rewrite unmarshal_obj, B. cbn [rbind]. split; [|done].
    destruct es as [|[k e1] [|y es]].
    + injection E as <-. rewrite marshal_dict, A. done.
    + destruct m as [|[k' j] m]; [done|]. cbn in U. destruct (unmarshal j) as [e2| |] eqn:U1; [|done..]. cbn in U. destruct (unmarshal_map m) as [es'| |] eqn:U2; [|done..].
      injection U as -> -> ->. assert (m = []) as ->. { destruct m as [|[k2 j2] m]; [done|]. cbn in U2. destruct (unmarshal j2); [|done..]. cbn in U2. by destruct (unmarshal_map m). }
      cbn in E. destruct k as [|c s]; [done|]. destruct (at_sign (String c s)) eqn:AT.
      * injection E as <-. rewrite marshal_wrapped; [|done|]. { cbn in A. destruct (marshal e1); [|done]. cbn in A |- *. injection A as ->. done. }
        intros I. by apply (N2 j _ I).
      * injection E as <-. rewrite marshal_dict, A. done.
    + assert (e = Expr "@dict" None (LMap ((k, e1) :: y :: es))) as -> by (destruct k; by injection E as <-). rewrite marshal_dict, A. done.
Qed.
End decoded.
