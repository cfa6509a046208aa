(** Evaluation on memory computes what evaluation on values computes. *)
From Verif Require Import JsonModel JsonProofs ExprModel ExprSpec ExprProofs HeapModel HeapSpec HeapProofs HeapProofs2 HeapProofs3.
#[local] Open Scope nat_scope.

Section eval.
Context {FF : FloatFmt} {EE : ExprEnv} {HE : HeapEnv}.
Hypothesis FP : faithful_paths.
#[local] Ltac lift := eapply post_bind; [first [apply mono_rv|apply mono_rl|apply mono_rq]|done| |].
#[local] Ltac val := apply post_val; [first [apply mono_rv|apply mono_rl|apply mono_rq]|].

Lemma args_ok {A A' B B'} (Q : A -> A' -> Prop) (R : rel B B') (a : option (option A)) (b : option (option A')) D h k1 k2 :
  opt2 (opt2 Q) a b -> (forall x y, Q x y -> post R D h (k1 x) (k2 y)) -> post R D h (h_with_args a k1) (with_args b k2).
Proof. intros H K. apply (with_args_ok Q); [|done]. by destruct a as [[]|], b as [[]|]. Qed.
#[local] Ltac args H := eapply args_ok; [exact H|].
Lemma literal_scalar {A} (f : json -> option A) v : (forall l, f (JList l) = None) -> (forall m, f (JMap m) = None) -> f JNull = None -> f (h_scalar (h_literal v)) = f v.
Proof. intros F1 F2 F3. destruct v; cbn; congruence. Qed.
Lemma node_ok op p q : hprel p q -> hrel (heval_node op p) (eval_node op q).
Proof.
  intros [A1 A2 A3 A4 A5 A6] D h hc ec B C. unfold heval_node, eval_node.
  assert (AO : forall (A : Type) (f : json -> option A) (k : option A -> run hval) (k' : option A -> res json),
    (forall l, f (JList l) = None) -> (forall m, f (JMap m) = None) -> f JNull = None ->
    (forall D1 h1 o, within_heap D1 h1 -> ctx_ok D1 h1 hc ec -> post rv D1 h1 (k o) (k' o)) ->
    post rv D h (hbind (match hp_arg p with Some f => f hc | None => hval_of (h_literal (hp_val p)) end) (fun v => k (f (h_scalar v))))
      (rbind (match p_arg q with Some f => f ec | None => Val (p_val q) end) (fun v => k' (f v)))).
  { intros A f k k' F1 F2 F3 K. destruct (hp_arg p) as [f1|], (p_arg q) as [g1|]; cbn in A1; try done.
    - lift; [by apply A1|]. intros h1 v j P B1 R. rewrite (scalar_as f _ _ _ _ F1 F2 F3 R). apply K; [done|by apply ctx_grow].
    - rewrite A4. unfold hbind, hval_of. cbn [rbind]. rewrite (literal_scalar f _ F1 F2 F3). by apply K. }
  assert (AQ : forall a b c, post rv D h
    (h_with_args (hp_args p) (fun fs => match fs with [f; g] => h_on_list hc g (h_quant_loop a b c f hc) | _ => hfail end))
    (with_args (p_args q) (fun fs => match fs with [f; g] => on_list ec g (quant_loop a b c f ec) | _ => Err end))).
  { intros a b c. args A2. intros fs gs H. destruct H as [|f g fs gs F1 H1]; [done|]. destruct H1 as [|f2 g2 fs gs F2 H1]; [done|]. destruct H1; [|done].
    apply on_list_ok; [apply mono_rv|done..|]. intros. by apply quant_ok. }
  destruct (opcode_of op) eqn:OC.
  - apply (AO _ as_bool (fun o => hor (HBool <$> o)) (fun o => or_err (JBool <$> o))); try done. intros D1 h1 o B1 C1. apply post_pure; [apply mono_rv|done|]. by destruct o.
  - apply (AO _ as_int (fun o => hor (HInt <$> o)) (fun o => or_err (JInt <$> o))); try done. intros D1 h1 o B1 C1. apply post_pure; [apply mono_rv|done|]. by destruct o.
  - apply (AO _ as_float (fun o => hor (HFloat <$> o)) (fun o => or_err (JFloat <$> o))); try done. intros D1 h1 o B1 C1. apply post_pure; [apply mono_rv|done|]. by destruct o.
  - apply (AO _ as_string (fun o => hbind (hor o) (fun s => hbind (h_get_path hc s) (fun v => hval_of (if is_str "@now" (h_scalar v) then HStr now else v))))
      (fun o => rbind (or_err o) (fun s => rbind (get_path ec s) (fun v => Val (if is_str "@now" v then JStr now else v))))); try done.
    intros D1 h1 o B1 C1. lift; [apply post_hor|]. intros h2 s ? P2 B2 <-. lift; [apply get_path_ok; [done|done|by apply ctx_grow]|]. intros h3 v j P3 B3 R. val.
    assert (E : is_str "@now" (h_scalar v) = is_str "@now" j).
    { destruct j as [| | | | |l|m]; [cbn in R; subst; done..| |].
      - unfold rv in R. rewrite reads_list in R. by destruct R as (? & ? & -> & _).
      - unfold rv in R. rewrite reads_map in R. by destruct R as (? & ? & -> & _). }
    rewrite E. by destruct (is_str "@now" j).
  - destruct (hp_arg p) as [f|], (p_arg q) as [g|]; cbn in A1; try done.
    + assert (E : forall r : res json, rbind (rbind r (fun v => or_err (as_list v))) (fun l => Val (JList (unpack l))) = rbind r (fun v => rbind (or_err (as_list v)) (fun l => Val (JList (unpack l))))) by (by intros []).
      rewrite E. lift; [by apply A1|]. intros h1 v j P B1 R. by apply post_unpack.
    + destruct (hp_list p) as [fs|], (p_list q) as [gs|]; cbn in A5; try done. lift; [by apply list_loop_ok|]. intros h1 vs l P B1 R.
      change (Val (JList (unpack l))) with (rbind (Val (JList l)) (fun j => rbind (or_err (as_list j)) (fun l => Val (JList (unpack l))))).
      lift; [by apply post_new_list|]. intros h2 v j P2 B2 R2. by apply post_unpack.
  - destruct (hp_arg p) as [f|], (p_arg q) as [g|]; cbn in A1; try done.
    + lift; [by apply A1|]. intros h1 v j P B1 R.
      assert (E : match j with JMap m => Val (JMap m) | _ => Err end = rbind (or_err (as_map j)) (fun m => Val (JMap m))) by (by destruct j). rewrite E. clear E.
      destruct (post_map _ _ _ _ R) as [P2 M2]. assert (E : (h_map v h1).1 = h1). { unfold h_map. destruct v; try done. by destruct (h1 !! n) as [[]|]. }
      unfold post, hbind. destruct (h_map v h1) as [h2 x]. cbn [fst] in E. subst h2. destruct j as [| | | | |l|m]; cbn [as_map or_err rbind snd] in M2 |- *; (destruct x as [ms| |]; try done).
      split; [done|]. cbn [fst snd hval_of]. eapply mono_rv; [reflexivity| |exact R]. intros n. by left.
    + destruct (hp_map p) as [m1|], (p_map q) as [m2|]; cbn in A6; try done. destruct A6 as [I A6]. eapply post_dict; [done|by apply in_order_rel|done|done].
  - by val.
  - args A2. intros fs gs H. destruct H as [|f g fs gs F1 H1]; [done|]. destruct H1 as [|f2 g2 fs gs F2 H1]; [done|].
    destruct H1 as [|f3 g3 fs gs F3 H1]; cbn.
    + lift; [by apply test_ok|]. intros h1 b ? P B1 <-. destruct b; [apply F2; [done|by apply ctx_grow]|by val].
    + destruct H1; [|done]. lift; [by apply test_ok|]. intros h1 b ? P B1 <-. destruct b; [apply F2|apply F3]; try done; by apply ctx_grow.
  - args A2. intros fs gs H. destruct H as [|f g fs gs F1 H1]; [done|]. destruct H1 as [|f2 g2 fs gs F2 H1]; [done|]. destruct H1; [|done]. cbn.
    lift; [by apply F1|]. intros h1 v j P B1 R. rewrite (null_as _ _ _ _ R). destruct (is_null j); [apply F2; [done|by apply ctx_grow]|by val].
  - args A3. intros ps qs H. unfold h_switch, op_switch. destruct H as [|p0 q0 ps qs H1 H2]; [done|]. apply switch_ok; [by constructor|done..].
  - args A2. intros fs gs H. by apply junction_ok.
  - args A2. intros fs gs H. by apply junction_ok.
  - args A2. intros fs gs H. destruct H as [|f g fs gs F1 H1]; [done|]. destruct H1 as [|f2 g2 fs gs F2 H1]; [done|]. destruct H1; [|done].
    apply on_list_ok; [apply mono_rv|done..|]. intros D1 h1 vs l B1 C1 R. lift; [by apply filter_ok|]. intros h2 vs2 l2 P2 B2 R2. by apply post_new_list.
  - apply AQ. - apply AQ. - apply AQ.
  - args A2. intros fs gs H. destruct H as [|f g fs gs F1 H1]; [done|]. destruct H1 as [|f2 g2 fs gs F2 H1]; [done|].
    apply on_list_ok; [apply mono_rv|done..|]. intros D1 h1 vs l B1 C1 R. lift; [by apply map_ok|]. intros h2 vs2 l2 P2 B2 R2. by apply post_new_list.
  - destruct (hp_arg p) as [f1|], (p_arg q) as [g1|]; cbn in A1; try done. lift; [by apply A1|]. intros h1 v j P B1 R. by apply post_value.
  - destruct (hp_arg p) as [f1|], (p_arg q) as [g1|]; cbn in A1; try done. lift; [by apply A1|]. done.
  - destruct (hp_arg p) as [f1|], (p_arg q) as [g1|]; cbn in A1; try done. lift; [by apply A1|]. intros h1 v j P B1 R. apply post_new_map; [done|]. constructor; [done|constructor].
  - done.
Qed.

(** *** Expressions *)
Lemma safe_inv op arg l : safe_keys (Expr op arg l) ->
  (forall a, arg = Some a -> safe_keys a) /\ (forall es, l = LList es -> Forall safe_keys es) /\ (forall m, l = LMap m -> keys_apart (map fst m) /\ Forall (fun kv => safe_keys kv.2) m).
Proof. intros H. by inversion H. Qed.
Lemma apart_ok ks : keys_apart ks -> exists I, forall k, k ∈ ks -> key_ok I k.
Proof.
  intros [H1 H2]. exists (fun p => p <> [] /\ exists k x r, k ∈ ks /\ path_of k = Some (p ++ x :: r)). intros k Hk. destruct (H1 k Hk) as [p Hp]. exists p. split_and!; [done| | |].
  - intros p1 x r -> Hn. split; [done|]. by exists k, x, r.
  - intros Hn (_ & k' & x & r & Hk' & Hp'). specialize (H2 k k' p x r Hk Hk' Hp Hp'). by apply app_eq_nil in H2 as [-> _].
  - intros -> k0 (_ & k' & x & r & Hk' & Hp'). by specialize (H2 k k' [] k0 (x :: r) Hk Hk' Hp Hp').
Qed.
Definition good (e : expr) : Prop := safe_keys e -> hrel (heval e) (eval e).
Lemma forall_rel es : Forall good es -> Forall safe_keys es -> Forall2 hrel (map heval es) (map eval es).
Proof. induction 1 as [|e es H _ IH]; intros S; inversion S; subst; cbn; constructor; [by apply H|by apply IH]. Qed.
(** The elements of a list argument, and theirs. *)
Fixpoint good2 (n : nat) (e : expr) : Prop :=
  good e /\ match n with O => True | S n => match e with Expr _ _ l => forall es, l = LList es -> Forall (good2 n) es end end.
Lemma good2_good n e : good2 n e -> good e.
Proof. destruct n; cbn; tauto. Qed.
Lemma exp_list_rel e : good2 1 e -> safe_keys e -> opt2 (Forall2 hrel) (exp_list heval e) (exp_list eval e).
Proof.
  destruct e as [op arg l]. intros [G1 G2] S. unfold exp_list. case_decide as K.
  - destruct l as [v|es|m]; try done. cbn. apply forall_rel; [|by apply (safe_inv _ _ _ S)]. eapply Forall_impl; [by apply G2|]. intros e. by intros [? _].
  - cbn. constructor; [by apply G1|constructor].
Qed.
Lemma exp_list_rel2 e : good2 2 e -> safe_keys e -> opt2 (Forall2 (opt2 (Forall2 hrel))) (exp_list (fun p => exp_list heval p) e) (exp_list (fun p => exp_list eval p) e).
Proof.
  destruct e as [op arg l]. intros [G1 G2] S. unfold exp_list at 1 3. case_decide as K.
  - destruct l as [v|es|m]; try done. cbn. destruct (safe_inv _ _ _ S) as (_ & S2 & _). specialize (S2 es eq_refl). specialize (G2 es eq_refl). clear S G1.
    induction G2 as [|e es He _ IH]; cbn; [constructor|]. inversion S2; subst. constructor; [by apply exp_list_rel|by apply IH].
  - constructor; [|constructor]. apply (exp_list_rel (Expr op arg l)); [|done]. split; [done|]. intros es ->. eapply Forall_impl; [by apply G2|]. intros e [? _]. by split.
Qed.
Lemma heval_good e : forall n, good2 n e.
Proof.
  induction e as [op arg l IA IL IM] using expr_all. intros n.
  assert (G : good (Expr op arg l)).
  { intros S. destruct (safe_inv _ _ _ S) as (S1 & S2 & S3). change (hrel (heval_node op
        (HParts (match arg with Some a => Some (heval a) | None => None end)
           (match arg with Some a => Some (exp_list heval a) | None => None end)
           (match arg with Some a => Some (exp_list (fun p => exp_list heval p) a) | None => None end)
           (match l with LVal v => v | _ => JNull end)
           (match l with LList es => Some (map heval es) | _ => None end)
           (match l with LMap m => Some (map (fun kv => (kv.1, heval kv.2)) m) | _ => None end)))
      (eval_node op
        (Parts (match arg with Some a => Some (eval a) | None => None end)
           (match arg with Some a => Some (exp_list eval a) | None => None end)
           (match arg with Some a => Some (exp_list (fun p => exp_list eval p) a) | None => None end)
           (match l with LVal v => v | _ => JNull end)
           (match l with LList es => Some (map eval es) | _ => None end)
           (match l with LMap m => Some (map (fun kv => (kv.1, eval kv.2)) m) | _ => None end)))).
    apply node_ok. split; cbn [hp_arg p_arg hp_args p_args hp_pairs p_pairs hp_val p_val hp_list p_list hp_map p_map].
    - destruct arg as [a|]; [|done]. apply (good2_good 0); [by apply IA|by apply S1].
    - destruct arg as [a|]; [|done]. apply exp_list_rel; [by apply IA|by apply S1].
    - destruct arg as [a|]; [|done]. apply exp_list_rel2; [by apply IA|by apply S1].
    - done.
    - destruct l as [v|es|m]; try done. apply forall_rel; [|by apply S2]. eapply Forall_impl; [by apply IL|]. intros e H. by apply (good2_good 0).
    - destruct l as [v|es|m]; try done. destruct (S3 m eq_refl) as [Ap S4]. destruct (apart_ok _ Ap) as [I K]. exists I. specialize (IM m eq_refl). clear -IM S4 K.
      induction m as [|[k e] m IH]; cbn; [constructor|]. inversion IM as [|? ? I1 I2]; subst. inversion S4 as [|? ? T1 T2]; subst. constructor.
      + split_and!; [done|by apply (I1 0)|]. apply K. by left.
      + apply IH; [done|done|]. intros k' Hk'. apply K. by right. }
  destruct n as [|n]; (split; [exact G|]); [done|]. intros es E. eapply Forall_impl; [by apply IL|]. intros e H. apply H.
Qed.
Lemma heval_eval e h hc o s : safe_keys e -> json_of h (hc_object hc) = Some o -> json_of h (hc_subject hc) = Some s ->
  exists new r, heval e hc h = (h ++ new, r) /\ reflects (h ++ new) r (eval e (Ctx o s)).
Proof.
  intros S O J. destruct (good2_good 0 e (heval_good e 0) S (fun n => n < length h) h hc (Ctx o s)) as [[new P] R]; [by intros n|by split; apply json_reads|].
  destruct (heval e hc h) as [h' r]. cbn in P, R. subst h'. exists new, r. split; [done|]. unfold reflects. destruct r, (eval e (Ctx o s)); try done. by eapply reads_json.
Qed.
End eval.
Lemma json_app h new v j : json_of h v = Some j -> json_of (h ++ new) v = Some j.
Proof. intros H. eapply reads_json. eapply reads_prefix; [by apply prefix_app_r| |by apply json_reads]. intros n Hn. exact Hn. Qed.
