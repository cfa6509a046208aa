(** Property C43: what the operators compute, and whether evaluation is
    deterministic. *)
From Verif Require Import JsonModel ObjModel JsonProofs ExprModel ExprSpec ExprProofs ExprProofs2 ExprProofs3 ExprProofs4 TestExpr.
#[local] Open Scope Z_scope.

(** *** Booleans *)
(** @and gives true if all arguments are true and false if one is false and all before
    it are true; otherwise it gives no value. *)
Theorem C43_and : forall (FF : FloatFmt) (EE : ExprEnv) es ctx v, gives (opl "@and" es) ctx v <->
  (v = JBool true /\ Forall (fun e => gives e ctx (JBool true)) es) \/
  (v = JBool false /\ exists es1 e es2, es = es1 ++ e :: es2 /\ Forall (fun e => gives e ctx (JBool true)) es1 /\ gives e ctx (JBool false)).
Proof. intros FF EE es ctx v. unfold gives at 1. rewrite and_eval. apply (junction_iff false). Qed.
Print Assumptions C43_and.
Example C43_and_example : gives (opl "@and" [opl "@eq" [strE "$.a"; intE 1]; boolE false; strE "not a boolean"]) here (JBool false).
Proof. vm_compute. reflexivity. Qed.

Theorem C43_or : forall (FF : FloatFmt) (EE : ExprEnv) es ctx v, gives (opl "@or" es) ctx v <->
  (v = JBool false /\ Forall (fun e => gives e ctx (JBool false)) es) \/
  (v = JBool true /\ exists es1 e es2, es = es1 ++ e :: es2 /\ Forall (fun e => gives e ctx (JBool false)) es1 /\ gives e ctx (JBool true)).
Proof. intros FF EE es ctx v. unfold gives at 1. rewrite or_eval. apply (junction_iff true). Qed.
Print Assumptions C43_or.
Example C43_or_example : gives (opl "@or" [boolE false; opl "@eq" [strE "$.a"; intE 1]; strE "not a boolean"]) here (JBool true).
Proof. vm_compute. reflexivity. Qed.

Theorem C43_not : forall (FF : FloatFmt) (EE : ExprEnv) e ctx v, gives (op1 "@not" e) ctx v <-> exists b, gives e ctx (JBool b) /\ v = JBool (negb b).
Proof.
  intros FF EE e ctx v. unfold gives. rewrite not_eval. destruct (eval e ctx) as [w| |]; cbn [rbind]; [|split; [done|by intros (b & ? & _)]..].
  destruct w; cbn; split; try done; try (by intros (b0 & E & _)).
  - intros E. injection E as <-. by exists b.
  - intros (b0 & E & ->). by injection E as ->.
Qed.
Print Assumptions C43_not.
Example C43_not_example : gives (op1 "@not" (opl "@eq" [strE "$.a"; intE 2])) here (JBool true).
Proof. vm_compute. reflexivity. Qed.

(** De Morgan: an equation of outcomes, failures included, for arguments that are
    booleans wherever they have a value. *)
Theorem C43_de_morgan : forall (FF : FloatFmt) (EE : ExprEnv) es ctx v,
  gives (op1 "@not" (opl "@and" es)) ctx v <-> gives (opl "@or" (map (op1 "@not") es)) ctx v.
Proof.
  intros FF EE es ctx v. rewrite C43_not, C43_or.
  assert (NG : forall e b, gives (op1 "@not" e) ctx (JBool b) <-> gives e ctx (JBool (negb b))).
  { intros e b. rewrite C43_not. split; [intros (b' & H & E); injection E as ->; by rewrite negb_involutive|]. intros H. exists (negb b). by rewrite negb_involutive. }
  split.
  - intros (b & H & ->). apply C43_and in H. destruct H as [[E F]|[E (es1 & e & es2 & -> & F & G)]]; injection E as ->.
    + left. split; [done|]. apply Forall_map. eapply Forall_impl; [exact F|]. intros e He. by apply NG.
    + right. split; [done|]. exists (map (op1 "@not") es1), (op1 "@not" e), (map (op1 "@not") es2). split; [by rewrite map_app|]. split; [|by apply NG].
      apply Forall_map. eapply Forall_impl; [exact F|]. intros x Hx. by apply NG.
  - intros [[-> F]|[-> (es1 & e & es2 & E & F & G)]].
    + exists true. split; [|done]. apply C43_and. left. split; [done|]. rewrite Forall_map in F. eapply Forall_impl; [exact F|]. intros x Hx. by apply (NG x false).
    + exists false. split; [|done]. apply C43_and. right. split; [done|]. apply map_eq_app in E. destruct E as (l1 & l2 & -> & <- & E). destruct l2 as [|e' l2]; [done|]. injection E as <- <-.
      exists l1, e', l2. split; [done|]. split; [|by apply (NG e' true)]. rewrite Forall_map in F. eapply Forall_impl; [exact F|]. intros x Hx. by apply (NG x false).
Qed.
Print Assumptions C43_de_morgan.
Example C43_de_morgan_example : gives (opl "@or" (map (op1 "@not") [boolE true; boolE false])) here (JBool true).
Proof. vm_compute. reflexivity. Qed.

(** *** Lists of arguments *)
(** A list gives its evaluated elements, unless the first of them is a list: then it
    gives that one. *)
Theorem C43_list : forall (FF : FloatFmt) (EE : ExprEnv) es ctx vs, all_give es ctx vs ->
  (forall l vs', vs = JList l :: vs' -> gives (listE es) ctx (JList l)) /\
  ((forall l vs', vs <> JList l :: vs') -> gives (listE es) ctx (JList vs)).
Proof.
  intros FF EE es ctx vs H. apply list_gives in H. split.
  - by intros l vs' ->.
  - intros N. rewrite unpack_id in H; [done|]. destruct vs as [|v vs]; [done|]. destruct v; try done. by destruct (N l vs).
Qed.
Print Assumptions C43_list.
Example C43_list_example : gives (listE [strE "$.a"; strE "$.l"]) here (JList [JInt 1; JList [JInt 1; JInt 5; JInt 3]]) /\ gives (listE [strE "$.l"; strE "$.a"]) here (JList [JInt 1; JInt 5; JInt 3]).
Proof. vm_compute. split; reflexivity. Qed.

(** *** Equality and membership *)
(** @eq is true for equal values only; the first must not be a list, and two missing
    values are not equal. *)
Theorem C43_eq_partial : forall (FF : FloatFmt) (EE : ExprEnv) a b ctx x y,
  gives a ctx x -> gives b ctx y -> not_list x -> exact_value x -> exact_value y ->
  exists r, gives (opl "@eq" [a; b]) ctx (JBool r) /\ (r = true <-> x = y /\ x <> JNull).
Proof.
  intros FF EE a b ctx x y A B N X Y. exists (negb (is_null x) && negb (is_null y) && go_equal x y). split.
  - assert (L : gives (listE [a; b]) ctx (JList [x; y])). { destruct (C43_list FF EE [a; b] ctx [x; y]) as [_ H]; [repeat constructor; done|]. apply H. intros l vs E. by injection E as -> _. }
    unfold gives in L |- *. rewrite opl_op1. change (eval (op1 "@eq" (listE [a; b])) ctx) with (rbind (eval (listE [a; b]) ctx) op_eq). by rewrite L.
  - rewrite !andb_true_iff, (exact_equal x y X Y). split.
    + intros [[H _] E]. split; [done|]. by destruct x.
    + intros [-> H]. by destruct y.
Qed.
Print Assumptions C43_eq_partial.
Example C43_eq_example : gives (opl "@eq" [strE "$.m"; dictE [("ns"%string, strE "y"); ("name"%string, strE "x")]]) here (JBool true) /\ gives (opl "@eq" [strE "$.a"; intE 2]) here (JBool false).
Proof. vm_compute. split; reflexivity. Qed.

(** If the first argument is a list of two elements, @eq compares these with each
    other, whatever the second argument is. *)
Theorem C43_eq_refuted : forall (FF : FloatFmt) (EE : ExprEnv) a b ctx x y z,
  gives a ctx (JList [x; y]) -> gives b ctx z -> exact_value x -> exact_value y -> x <> JNull ->
  exists r, gives (opl "@eq" [a; b]) ctx (JBool r) /\ (r = true <-> x = y).
Proof.
  intros FF EE a b ctx x y z A B X Y N. exists (negb (is_null x) && negb (is_null y) && go_equal x y). split.
  - assert (L : gives (listE [a; b]) ctx (JList [x; y])). { destruct (C43_list FF EE [a; b] ctx [JList [x; y]; z]) as [H _]; [repeat constructor; done|]. by apply (H _ [z]). }
    unfold gives in L |- *. rewrite opl_op1. change (eval (op1 "@eq" (listE [a; b])) ctx) with (rbind (eval (listE [a; b]) ctx) op_eq). by rewrite L.
  - rewrite !andb_true_iff, (exact_equal x y X Y). split; [by intros [_ ?]|]. intros ->. by destruct y.
Qed.
Print Assumptions C43_eq_refuted.
Example C43_eq_refuted_example :
  let l := listE [intE 1; intE 2] in let k := listE [intE 1; intE 1] in
  gives (opl "@eq" [l; l]) here (JBool false) /\ gives (opl "@eq" [k; l]) here (JBool true) /\ eval (opl "@eq" [strE "$.l"; strE "$.l"]) here = Err.
Proof. vm_compute. repeat split; reflexivity. Qed.
(** Two missing fields are not equal either. *)
Theorem C43_eq_null_refuted : exists e, gives e here JNull /\ gives (opl "@eq" [e; e]) here (JBool false).
Proof. exists (strE "$.nothing"). vm_compute. split; reflexivity. Qed.
Print Assumptions C43_eq_null_refuted.

Theorem C43_in_partial : forall (FF : FloatFmt) (EE : ExprEnv) a b ctx x l,
  gives a ctx x -> gives b ctx (JList l) -> not_list x -> exact_value x -> Forall exact_value l ->
  exists r, gives (opl "@in" [a; b]) ctx (JBool r) /\ (r = true <-> x ∈ l).
Proof.
  intros FF EE a b ctx x l A B N X Y. exists (existsb (fun y => go_equal y x) l). split.
  - assert (L : gives (listE [a; b]) ctx (JList [x; JList l])). { destruct (C43_list FF EE [a; b] ctx [x; JList l]) as [_ H]; [repeat constructor; done|]. apply H. intros l' vs E. by injection E as -> _. }
    unfold gives in L |- *. rewrite opl_op1. change (eval (op1 "@in" (listE [a; b])) ctx) with (rbind (eval (listE [a; b]) ctx) op_in). by rewrite L.
  - rewrite existsb_exists. rewrite Forall_forall in Y. split.
    + intros (y & I & E). apply elem_of_list_In in I. apply exact_equal in E; [by subst|by apply Y|done].
    + intros I. exists x. split; [by apply elem_of_list_In|]. by apply exact_equal.
Qed.
Print Assumptions C43_in_partial.
Example C43_in_example : gives (opl "@in" [intE 5; strE "$.l"]) here (JBool true) /\ gives (opl "@in" [intE 4; strE "$.l"]) here (JBool false).
Proof. vm_compute. split; reflexivity. Qed.

Theorem C43_exists : forall (FF : FloatFmt) (EE : ExprEnv) e ctx v, gives e ctx v ->
  (gives (op1 "@exists" e) ctx (JBool true) <-> v <> JNull) /\ (gives (op1 "@isnil" e) ctx (JBool true) <-> v = JNull).
Proof.
  intros FF EE e ctx v H. unfold gives in *. change (eval (op1 "@exists" e) ctx) with (rbind (eval e ctx) (fun v => Val (JBool (negb (is_null v))))).
  change (eval (op1 "@isnil" e) ctx) with (rbind (eval e ctx) (fun v => Val (JBool (is_null v)))). rewrite H. destruct v; done.
Qed.
Print Assumptions C43_exists.
Example C43_exists_example : gives (op1 "@exists" (strE "$.m.name")) here (JBool true) /\ gives (op1 "@exists" (strE "$.m.nothing")) here (JBool false).
Proof. vm_compute. split; reflexivity. Qed.

(** *** Lists *)
Theorem C43_len : forall (FF : FloatFmt) (EE : ExprEnv) e ctx l, gives e ctx (JList l) -> gives (op1 "@len" e) ctx (JInt (Z.of_nat (length l))).
Proof. intros FF EE e ctx l H. unfold gives in *. change (eval (op1 "@len" e) ctx) with (rbind (eval e ctx) op_len). by rewrite H. Qed.
Print Assumptions C43_len.
Example C43_len_example : gives (op1 "@len" (strE "$.l")) here (JInt 3).
Proof. vm_compute. reflexivity. Qed.

Theorem C43_any : forall (FF : FloatFmt) (EE : ExprEnv) f g ctx l (p : json -> bool), gives g ctx (JList l) -> computes f ctx l (fun x => JBool (p x)) ->
  gives (opl "@any" [f; g]) ctx (JBool (existsb p l)).
Proof. intros FF EE f g ctx l p G F. unfold gives. rewrite (any_eval f g ctx l G). by apply any_gives. Qed.
Print Assumptions C43_any.
Theorem C43_all : forall (FF : FloatFmt) (EE : ExprEnv) f g ctx l (p : json -> bool), gives g ctx (JList l) -> computes f ctx l (fun x => JBool (p x)) ->
  gives (opl "@all" [f; g]) ctx (JBool (forallb p l)).
Proof. intros FF EE f g ctx l p G F. unfold gives. rewrite (all_eval f g ctx l G). by apply all_gives. Qed.
Print Assumptions C43_all.
Theorem C43_filter : forall (FF : FloatFmt) (EE : ExprEnv) f g ctx l (p : json -> bool), gives g ctx (JList l) -> computes f ctx l (fun x => JBool (p x)) ->
  gives (opl "@filter" [f; g]) ctx (JList (List.filter p l)).
Proof. intros FF EE f g ctx l p G F. unfold gives. rewrite (filter_eval f g ctx l G). by rewrite (filter_gives f p ctx l F). Qed.
Print Assumptions C43_filter.
Theorem C43_map : forall (FF : FloatFmt) (EE : ExprEnv) f g ctx l h, gives g ctx (JList l) -> computes f ctx l h ->
  gives (opl "@map" [f; g]) ctx (JList (map h l)).
Proof. intros FF EE f g ctx l h G F. unfold gives. rewrite (map_eval f g ctx l G). by rewrite (map_gives f h ctx l F). Qed.
Print Assumptions C43_map.
Example C43_loops_example : gives (strE "$.l") here (JList [JInt 1; JInt 5; JInt 3]) /\
  gives (opl "@any" [big; strE "$.l"]) here (JBool true) /\ gives (opl "@all" [big; strE "$.l"]) here (JBool false) /\
  gives (opl "@filter" [big; strE "$.l"]) here (JList [JInt 5; JInt 3]) /\ gives (opl "@map" [big; strE "$.l"]) here (JList [JBool false; JBool true; JBool true]).
Proof. vm_compute. repeat split; reflexivity. Qed.

(** A missing element makes $$ mean the whole object inside these operators. *)
Theorem C43_null_subject_refuted : forall (FF : FloatFmt) (EE : ExprEnv) d g k,
  gives g (Ctx d JNull) (JList [JNull]) -> eval (opl "@map" [strE (String dollar (String dollar k)); g]) (Ctx d JNull) =
  rbind (eval (strE (String dollar (String dollar k))) (Ctx d JNull)) (fun v => Val (JList [v])).
Proof. intros FF EE d g k H. rewrite (map_eval _ _ _ _ H). cbn [map_loop]. unfold with_subject. cbn [c_object]. by destruct (eval _ (Ctx d JNull)). Qed.
Print Assumptions C43_null_subject_refuted.

(** @none never gives true. *)
Theorem C43_none_refuted : forall (FF : FloatFmt) (EE : ExprEnv) es ctx v, gives (opl "@none" es) ctx v -> v = JBool false.
Proof. intros FF EE. apply none_eval. Qed.
Print Assumptions C43_none_refuted.
Example C43_none_example : gives (opl "@none" [boolE false; strE "$.l"]) here (JBool false).
Proof. vm_compute. reflexivity. Qed.

(** *** Numbers and strings *)
Theorem C43_sum : forall (FF : FloatFmt) (EE : ExprEnv) e ctx ns, gives e ctx (JList (map JInt ns)) ->
  (- 2 ^ 63 <= foldr Z.add 0 ns < 2 ^ 63 -> gives (op1 "@sum" e) ctx (JInt (foldr Z.add 0 ns))) /\
  exists n, gives (op1 "@sum" e) ctx (JInt n) /\ - 2 ^ 63 <= n < 2 ^ 63 /\ (n - foldr Z.add 0 ns) mod 2 ^ 64 = 0.
Proof.
  intros FF EE e ctx ns H. assert (G : gives (op1 "@sum" e) ctx (JInt (wrap64 (zsum ns)))).
  { unfold gives in *. change (eval (op1 "@sum" e) ctx) with (rbind (eval e ctx) op_sum). rewrite H. cbn [rbind]. unfold op_sum. rewrite ints_nums.
    pose proof (sum_fold ns 0) as E. change (wrap64 0) with 0 in E. rewrite E. by rewrite Z.add_0_l. }
  split.
  - intros [H1 H2]. fold (zsum ns) in *. rewrite wrap_in in G; [done|]. unfold in_int64. apply andb_true_iff. split; [by apply Z.leb_le|by apply Z.ltb_lt].
  - exists (wrap64 (zsum ns)). split; [done|]. apply wrap_fits.
Qed.
Print Assumptions C43_sum.
Example C43_sum_example : gives (op1 "@sum" (strE "$.l")) here (JInt 9).
Proof. vm_compute. reflexivity. Qed.

Theorem C43_minmax : forall (FF : FloatFmt) (EE : ExprEnv) e ctx n ns, gives e ctx (JList (map JInt (n :: ns))) ->
  (exists a, gives (op1 "@min" e) ctx (JInt a) /\ a ∈ n :: ns /\ forall m, m ∈ n :: ns -> a <= m) /\
  (exists a, gives (op1 "@max" e) ctx (JInt a) /\ a ∈ n :: ns /\ forall m, m ∈ n :: ns -> m <= a).
Proof.
  intros FF EE e ctx n ns H. unfold gives in *. change (eval (op1 "@min" e) ctx) with (rbind (eval e ctx) (best_op Z.min fmin)).
  change (eval (op1 "@max" e) ctx) with (rbind (eval e ctx) (best_op Z.max fmax)). rewrite H. cbn [rbind]. unfold best_op. rewrite ints_nums.
  destruct (fold_min ns n) as [A1 A2], (fold_max ns n) as [B1 B2]. split; eauto.
Qed.
Print Assumptions C43_minmax.
Example C43_minmax_example : gives (op1 "@min" (strE "$.l")) here (JInt 1) /\ gives (op1 "@max" (strE "$.l")) here (JInt 5).
Proof. vm_compute. split; reflexivity. Qed.

Theorem C43_compare : forall (FF : FloatFmt) (EE : ExprEnv) e ctx a b, gives e ctx (JList [JInt a; JInt b]) ->
  (gives (op1 "@lt" e) ctx (JBool true) <-> a < b) /\ (gives (op1 "@lte" e) ctx (JBool true) <-> a <= b) /\
  (gives (op1 "@gt" e) ctx (JBool true) <-> a > b) /\ (gives (op1 "@gte" e) ctx (JBool true) <-> a >= b).
Proof.
  intros FF EE e ctx a b H. unfold gives in *.
  change (eval (op1 "@lt" e) ctx) with (rbind (eval e ctx) (cmp_op Z.ltb SFltb)). change (eval (op1 "@lte" e) ctx) with (rbind (eval e ctx) (cmp_op Z.leb SFleb)).
  change (eval (op1 "@gt" e) ctx) with (rbind (eval e ctx) (cmp_op (fun a b => Z.ltb b a) (fun a b => SFltb b a))).
  change (eval (op1 "@gte" e) ctx) with (rbind (eval e ctx) (cmp_op (fun a b => Z.leb b a) (fun a b => SFleb b a))).
  rewrite H. cbn [rbind]. unfold cmp_op, as_pair. change (JList [JInt a; JInt b]) with (JList (map JInt [a; b])). rewrite ints_nums.
  assert (I : forall x, @Val json (JBool x) = Val (JBool true) <-> x = true) by (intros x; split; [by intros [= ->]|by intros ->]). rewrite !I.
  split; [|split; [|split]]; [rewrite Z.ltb_lt|rewrite Z.leb_le|rewrite Z.ltb_lt|rewrite Z.leb_le]; lia.
Qed.
Print Assumptions C43_compare.
Example C43_compare_example : gives (opl "@lt" [strE "$.a"; intE 2]) here (JBool true).
Proof. vm_compute. reflexivity. Qed.

Theorem C43_arith : forall (FF : FloatFmt) (EE : ExprEnv) e ctx a b, gives e ctx (JList [JInt a; JInt b]) ->
  (- 2 ^ 63 <= a + b < 2 ^ 63 -> gives (op1 "@add" e) ctx (JInt (a + b))) /\ (- 2 ^ 63 <= a - b < 2 ^ 63 -> gives (op1 "@sub" e) ctx (JInt (a - b))) /\
  (- 2 ^ 63 <= a * b < 2 ^ 63 -> gives (op1 "@mul" e) ctx (JInt (a * b))) /\
  forall name n, (name, n) ∈ [("@add"%string, a + b); ("@sub"%string, a - b); ("@mul"%string, a * b)] ->
    exists m, gives (op1 name e) ctx (JInt m) /\ - 2 ^ 63 <= m < 2 ^ 63 /\ (m - n) mod 2 ^ 64 = 0.
Proof.
  intros FF EE e ctx a b H. unfold gives in *.
  change (eval (op1 "@add" e) ctx) with (rbind (eval e ctx) (arith_op Z.add fadd)). change (eval (op1 "@sub" e) ctx) with (rbind (eval e ctx) (arith_op Z.sub fsub)).
  change (eval (op1 "@mul" e) ctx) with (rbind (eval e ctx) (arith_op Z.mul fmul)).
  rewrite H. cbn [rbind]. unfold arith_op, as_pair. change (JList [JInt a; JInt b]) with (JList (map JInt [a; b])). rewrite ints_nums.
  assert (I : forall x, - 2 ^ 63 <= x < 2 ^ 63 -> wrap64 x = x). { intros x [H1 H2]. apply wrap_in. unfold in_int64. apply andb_true_iff. split; [by apply Z.leb_le|by apply Z.ltb_lt]. }
  split; [|split; [|split]]; [intros X; by rewrite I..|].
  intros name n L. assert (G : eval (op1 name e) ctx = Val (JInt (wrap64 n))); [|exists (wrap64 n); split; [exact G|apply wrap_fits]].
  rewrite !elem_of_cons, elem_of_nil in L. destruct L as [L|[L|[L|[]]]]; injection L as -> ->.
  - change (eval (op1 "@add" e) ctx) with (rbind (eval e ctx) (arith_op Z.add fadd)). rewrite H. cbn [rbind]. unfold arith_op, as_pair.
    change (JList [JInt a; JInt b]) with (JList (map JInt [a; b])). by rewrite ints_nums.
  - change (eval (op1 "@sub" e) ctx) with (rbind (eval e ctx) (arith_op Z.sub fsub)). rewrite H. cbn [rbind]. unfold arith_op, as_pair.
    change (JList [JInt a; JInt b]) with (JList (map JInt [a; b])). by rewrite ints_nums.
  - change (eval (op1 "@mul" e) ctx) with (rbind (eval e ctx) (arith_op Z.mul fmul)). rewrite H. cbn [rbind]. unfold arith_op, as_pair.
    change (JList [JInt a; JInt b]) with (JList (map JInt [a; b])). by rewrite ints_nums.
Qed.
Print Assumptions C43_arith.
Example C43_arith_example : gives (opl "@sub" [strE "$.a"; intE 2]) here (JInt (-1)).
Proof. vm_compute. reflexivity. Qed.

(** A number that is not an integer makes the operators compute with floats: [f64_of_int]
    is the conversion float64(n), [SFadd 53 1024] and so on are the operations of IEEE doubles. *)
Theorem C43_floats : forall (FF : FloatFmt) (EE : ExprEnv) e ctx vs fs, gives e ctx (JList vs) ->
  Forall2 (fun v f => v = JFloat f \/ exists n, v = JInt n /\ f = f64_of_int n) vs fs -> (exists f, JFloat f ∈ vs) ->
  gives (op1 "@sum" e) ctx (JFloat (foldl (SFadd 53 1024) (S754_zero false) fs)) /\
  (forall f fs', fs = f :: fs' -> gives (op1 "@min" e) ctx (JFloat (foldl fmin f fs')) /\ gives (op1 "@max" e) ctx (JFloat (foldl fmax f fs'))) /\
  forall f g, fs = [f; g] ->
    gives (op1 "@add" e) ctx (JFloat (SFadd 53 1024 f g)) /\ gives (op1 "@sub" e) ctx (JFloat (SFsub 53 1024 f g)) /\ gives (op1 "@mul" e) ctx (JFloat (SFmul 53 1024 f g)) /\
    gives (op1 "@lt" e) ctx (JBool (SFltb f g)) /\ gives (op1 "@lte" e) ctx (JBool (SFleb f g)) /\
    gives (op1 "@gt" e) ctx (JBool (SFltb g f)) /\ gives (op1 "@gte" e) ctx (JBool (SFleb g f)).
Proof.
  intros FF EE e ctx vs fs H F X. pose proof (floats_nums vs fs F X) as N. unfold gives in *. split; [|split].
  - change (eval (op1 "@sum" e) ctx) with (rbind (eval e ctx) op_sum). rewrite H. cbn [rbind]. unfold op_sum. by rewrite N.
  - intros f fs' ->. split.
    + change (eval (op1 "@min" e) ctx) with (rbind (eval e ctx) (best_op Z.min fmin)). rewrite H. cbn [rbind]. unfold best_op. by rewrite N.
    + change (eval (op1 "@max" e) ctx) with (rbind (eval e ctx) (best_op Z.max fmax)). rewrite H. cbn [rbind]. unfold best_op. by rewrite N.
  - intros f g ->. change (eval (op1 "@add" e) ctx) with (rbind (eval e ctx) (arith_op Z.add fadd)). change (eval (op1 "@sub" e) ctx) with (rbind (eval e ctx) (arith_op Z.sub fsub)).
    change (eval (op1 "@mul" e) ctx) with (rbind (eval e ctx) (arith_op Z.mul fmul)).
    change (eval (op1 "@lt" e) ctx) with (rbind (eval e ctx) (cmp_op Z.ltb SFltb)). change (eval (op1 "@lte" e) ctx) with (rbind (eval e ctx) (cmp_op Z.leb SFleb)).
    change (eval (op1 "@gt" e) ctx) with (rbind (eval e ctx) (cmp_op (fun a b => Z.ltb b a) (fun a b => SFltb b a))).
    change (eval (op1 "@gte" e) ctx) with (rbind (eval e ctx) (cmp_op (fun a b => Z.leb b a) (fun a b => SFleb b a))).
    rewrite H. cbn [rbind]. unfold arith_op, cmp_op, as_pair. rewrite N. by split_and!.
Qed.
Print Assumptions C43_floats.
Example C43_floats_example : gives (opl "@mul" [Expr "@float" None (LVal (JFloat half)); intE 2]) here (JFloat one) /\
  gives (opl "@lt" [Expr "@float" None (LVal (JFloat half)); intE 0]) here (JBool false).
Proof. vm_compute. split; reflexivity. Qed.

(** A hash has six characters, whatever is hashed. *)
Theorem C43_hash : forall (FF : FloatFmt) (EE : ExprEnv) e ctx v, gives (op1 "@hash" e) ctx v -> exists s, v = JStr s /\ String.length s = 6%nat.
Proof.
  intros FF EE e ctx v. unfold gives. change (eval (op1 "@hash" e) ctx) with (rbind (eval e ctx) op_hash). destruct (eval e ctx) as [w| |]; cbn [rbind]; [|done..].
  unfold op_hash. destruct (enc w) as [js|]; [|done]. intros E. injection E as <-. eexists. split; [reflexivity|]. apply hash_length.
Qed.
Print Assumptions C43_hash.
Example C43_hash_example : exists s, gives (op1 "@hash" (strE "$.l")) here (JStr s).
Proof. eexists. vm_compute. reflexivity. Qed.

(** In a loop $$ is the element: [$$q] gives what [$q] gives on a document that is the element. *)
Theorem C43_subject : forall (FF : FloatFmt) (EE : ExprEnv) q d x v, x <> JNull -> q <> String dollar "." ->
  gives (strE (String dollar (String dollar q))) (Ctx d x) v <-> gives (strE (String dollar q)) (Ctx x JNull) v.
Proof. intros FF EE q d x v Hx Hq. unfold gives. by rewrite subject_eval. Qed.
Print Assumptions C43_subject.
Example C43_subject_example : gives (strE "$$.b") (Ctx (JMap [("b"%string, JInt 1)]) (JMap [("b"%string, JInt 2)])) (JInt 2) /\
  gives (strE "$.b") (Ctx (JMap [("b"%string, JInt 1)]) (JMap [("b"%string, JInt 2)])) (JInt 1).
Proof. vm_compute. split; reflexivity. Qed.

(** The arguments of @concat: strings as they are and integers in decimal. *)
Theorem C43_concat_partial : forall (FF : FloatFmt) (EE : ExprEnv) e ctx vs ss, gives e ctx (JList vs) ->
  Forall2 (fun v s => v = JStr s \/ exists n, v = JInt n /\ s = enc_int n) vs ss ->
  gives (op1 "@concat" e) ctx (JStr (String.concat EmptyString ss)).
Proof.
  intros FF EE e ctx vs ss H F. unfold gives in *. change (eval (op1 "@concat" e) ctx) with (rbind (eval e ctx) op_concat). rewrite H. cbn [rbind]. unfold op_concat, as_list_of. cbn.
  assert (C : collect as_string vs = Some ss). { clear H. induction F as [|v s vs ss G F IH]; [done|]. cbn. rewrite IH. destruct G as [->|(n & -> & ->)]; done. }
  rewrite C. by rewrite append_assoc_fold.
Qed.
Print Assumptions C43_concat_partial.
Example C43_concat_example : gives (opl "@concat" [strE "$.m.name"; strE "-"; intE 12]) here (JStr "x-12").
Proof. vm_compute. reflexivity. Qed.
(** Floats come out as a formatting error. *)
Theorem C43_concat_refuted : forall (FF : FloatFmt) (EE : ExprEnv) ctx f, gives (opl "@concat" [Expr "@float" None (LVal (JFloat f))]) ctx (JStr ("%!d(float64=" +:+ fmt_g f +:+ ")")).
Proof. done. Qed.
Print Assumptions C43_concat_refuted.

(** The numbers from a on, below b. *)
Theorem C43_range : forall (FF : FloatFmt) (EE : ExprEnv) e ctx a b, gives e ctx (JList [JInt a; JInt b]) -> a <= b -> b - a < 2 ^ 63 ->
  exists ns, gives (op1 "@range" e) ctx (JList (map JInt ns)) /\ length ns = Z.to_nat (b - a) /\ forall i, (i < length ns)%nat -> ns !! i = Some (a + Z.of_nat i).
Proof.
  intros FF EE e ctx a b H L R. exists (map (fun i : nat => a + Z.of_nat i) (seq 0 (Z.to_nat (b - a)))). split; [|split].
  - unfold gives in *. change (eval (op1 "@range" e) ctx) with (rbind (eval e ctx) op_range). rewrite H. cbn [rbind]. unfold op_range, as_list_of. cbn [as_list].
    change [JInt a; JInt b] with (map JInt [a; b]). cbn [mbind option_bind]. rewrite (collect_map as_int JInt) by done. cbn [map]. rewrite Z.min_l by done.
    assert (W : wrap64 (b - a) = b - a). { apply wrap_in. unfold in_int64. apply andb_true_iff. split; [apply Z.leb_le; lia|by apply Z.ltb_lt]. }
    rewrite W. assert (N : (b - a <? 0) = false) by (apply Z.ltb_ge; lia). rewrite N. by rewrite map_map.
  - by rewrite map_length, seq_length.
  - rewrite map_length, seq_length. intros i I. change (map (fun i : nat => a + Z.of_nat i)) with (fmap (M := list) (fun i : nat => a + Z.of_nat i)). rewrite list_lookup_fmap, lookup_seq_lt by done. done.
Qed.
Print Assumptions C43_range.
Example C43_range_example : gives (opl "@range" [intE 2; intE 5]) here (JList [JInt 2; JInt 3; JInt 4]).
Proof. vm_compute. reflexivity. Qed.

(** *** Choices *)
Theorem C43_cond : forall (FF : FloatFmt) (EE : ExprEnv) c t e ctx b, gives c ctx (JBool b) ->
  eval (opl "@cond" [c; t; e]) ctx = eval (if b then t else e) ctx /\ eval (opl "@cond" [c; t]) ctx = if b then eval t ctx else Val JNull.
Proof.
  intros FF EE c t e ctx b H. change (eval (opl "@cond" [c; t; e]) ctx) with (op_cond [eval c; eval t; eval e] ctx). change (eval (opl "@cond" [c; t]) ctx) with (op_cond [eval c; eval t] ctx).
  apply test_true in H. unfold op_cond. rewrite H. by destruct b.
Qed.
Print Assumptions C43_cond.
Example C43_cond_example : gives (opl "@cond" [boolE false; op1 "@nonsense" (intE 1); intE 2]) here (JInt 2).
Proof. vm_compute. reflexivity. Qed.
(** @switch: the first pair whose condition is true *)
Theorem C43_switch : forall (FF : FloatFmt) (EE : ExprEnv) cs1 c e cs2 ctx,
  Forall (fun ce => gives ce.1 ctx (JBool false)) cs1 -> gives c ctx (JBool true) ->
  eval (opl "@switch" (map (fun ce => listE [ce.1; ce.2]) (cs1 ++ (c, e) :: cs2))) ctx = eval e ctx.
Proof.
  intros FF EE cs1 c e cs2 ctx F H. set (cs := cs1 ++ (c, e) :: cs2).
  assert (E : eval (opl "@switch" (map (fun ce => listE [ce.1; ce.2]) cs)) ctx = op_switch (map (fun ce => Some [eval ce.1; eval ce.2]) cs) ctx).
  { change (eval (opl "@switch" (map (fun ce => listE [ce.1; ce.2]) cs)) ctx) with (op_switch (map (exp_list eval) (map (fun ce => listE [ce.1; ce.2]) cs)) ctx). by rewrite map_map. }
  rewrite E. unfold op_switch, cs. destruct (map _ (cs1 ++ (c, e) :: cs2)) eqn:M; [by destruct cs1|]. rewrite <- M. clear M E cs.
  apply test_true in H. induction F as [|[c0 e0] cs1 F1 F2 IH]; cbn; [by rewrite H|]. apply test_true in F1. cbn in F1. by rewrite F1.
Qed.
Print Assumptions C43_switch.
Example C43_switch_example : gives (opl "@switch" [listE [boolE false; intE 1]; listE [boolE true; intE 2]; listE [intE 7; intE 3]]) here (JInt 2).
Proof. vm_compute. reflexivity. Qed.
Theorem C43_defined_or : forall (FF : FloatFmt) (EE : ExprEnv) a b ctx v, gives a ctx v ->
  (v <> JNull -> gives (opl "@definedOr" [a; b]) ctx v) /\ (v = JNull -> eval (opl "@definedOr" [a; b]) ctx = eval b ctx).
Proof.
  intros FF EE a b ctx v H. unfold gives in *. change (eval (opl "@definedOr" [a; b]) ctx) with (op_defined_or [eval a; eval b] ctx). unfold op_defined_or. rewrite H. cbn [rbind].
  split; [|by intros ->]. intros N. by destruct v.
Qed.
Print Assumptions C43_defined_or.
Example C43_defined_or_example : gives (opl "@definedOr" [strE "$.nothing"; strE "$.a"]) here (JInt 1).
Proof. vm_compute. reflexivity. Qed.

(** *** Maps *)
(** A map of expressions gives the map of their values, for plain keys and values that
    are not strings starting with $. *)
Theorem C43_dict_partial : forall (FF : FloatFmt) (EE : ExprEnv) (m : list (string * expr)) (f : string -> json) ctx, is_order iterate -> NoDup (map fst m) ->
  (forall k e, (k, e) ∈ m -> k <> EmptyString /\ plain_key k /\ gives e ctx (f k) /\ match f k with JStr s => plain_key s | _ => True end) ->
  exists o, gives (dictE m) ctx (JMap o) /\ ksorted o /\ forall k, mget o k = if bool_decide (k ∈ map fst m) then Some (f k) else None.
Proof.
  intros FF EE m f ctx O N H. exists (msets [] (zip (map fst m) (map f (map fst m)))). split; [|split].
  - apply dict_gives; [done..| |].
    + apply Forall_forall. intros [k e] I. destruct (H k e I) as (? & ? & _). done.
    + clear N. induction m as [|[k e] m IH]; cbn; constructor.
      * destruct (H k e) as (_ & _ & ? & ?); [left|]. done.
      * apply IH. intros k0 e0 I. apply H. by right.
  - apply msets_ks. constructor.
  - intros k. assert (EZ : forall l, map fst (zip l (map f l)) = l). { intros l. induction l as [|x l IH]; [done|]. cbn. by rewrite IH. }
    rewrite msets_get; [|constructor|by rewrite EZ]. assert (EA : forall l, assoc k (zip l (map f l)) = if bool_decide (k ∈ l) then Some (f k) else None).
    { clear. induction l as [|x l IH]; [done|]. unfold assoc in *. cbn [map zip zip_with List.find fst]. destruct (String.eqb x k) eqn:E.
      - apply String.eqb_eq in E. subst x. rewrite bool_decide_true by left. done.
      - apply String.eqb_neq in E. rewrite IH. replace (bool_decide (k ∈ x :: l)) with (bool_decide (k ∈ l)); [done|]. apply bool_decide_ext. rewrite elem_of_cons. naive_solver. }
    rewrite EA. by destruct (bool_decide (k ∈ map fst m)).
Qed.
Print Assumptions C43_dict_partial.
Example C43_dict_example : gives (dictE [("b"%string, strE "$.a"); ("a"%string, intE 7)]) here (JMap [("a"%string, JInt 7); ("b"%string, JInt 1)]).
Proof. vm_compute. reflexivity. Qed.
(** A string of the document that starts with $ is evaluated once more. *)
Theorem C43_dict_refuted : gives (strE "$.ref") here (JStr "$.a") /\ gives (dictE [("k"%string, strE "$.ref")]) here (JMap [("k"%string, JInt 1)]).
Proof. vm_compute. split; reflexivity. Qed.
Print Assumptions C43_dict_refuted.
(** A string of the document that reads @now becomes the time. *)
Theorem C43_now_refuted : simple_get "$.t" doc = Some [JStr "@now"] /\ gives (strE "$.t") here (JStr (@now simple_env)).
Proof. vm_compute. split; reflexivity. Qed.
Print Assumptions C43_now_refuted.

(** *** Determinism *)
(** With plain, distinct keys the result does not depend on the order in which maps are
    visited: the same value, or no value at all. *)
Theorem C43_deterministic_partial : forall (FF : FloatFmt) (EE : ExprEnv) it1 it2 e ctx, is_order it1 -> is_order it2 -> plain e ->
  forall v, gives (EE := with_order EE it1) e ctx v <-> gives (EE := with_order EE it2) e ctx v.
Proof.
  intros FF EE it1 it2 e ctx O1 O2 P v. pose proof (si_eval _ _ _ _ _ (plain_similar it1 it2 O1 O2 e P) ctx) as A. unfold gives.
  destruct (eval (EE := with_order EE it1) e ctx), (eval (EE := with_order EE it2) e ctx); cbn in A; try done. by subst.
Qed.
Print Assumptions C43_deterministic_partial.
Definition two_keys : expr := dictE [("b"%string, strE "$.a"); ("a"%string, opl "@sum" [intE 7; intE 1])].
Example C43_deterministic_example : plain two_keys /\ is_order (fun l => rev l) /\ gives (EE := with_order simple_env (fun l => rev l)) two_keys here (JMap [("a"%string, JInt 8); ("b"%string, JInt 1)]).
Proof.
  split; [|split; [|vm_compute; reflexivity]].
  - repeat constructor; try done; try (intros a E; try done; injection E as <-; repeat constructor; intros ? ?; done).
    set_solver. set_solver.
  - intros l. symmetry. apply Permutation_rev.
Qed.
(** With a key that is a path the order decides: "$." replaces what is there. *)
Theorem C43_deterministic_refuted : exists e v w, is_order (fun l => rev l) /\ v <> w /\
  gives (EE := simple_env) e here v /\ gives (EE := with_order simple_env (fun l => rev l)) e here w.
Proof.
  exists (dictE [("$."%string, strE "$.m"); ("name"%string, strE "mine")]), (JMap [("name"%string, JStr "mine"); ("ns"%string, JStr "y")]), (JMap [("name"%string, JStr "x"); ("ns"%string, JStr "y")]).
  split; [intros l; symmetry; apply Permutation_rev|]. split; [by intros [= ?]|]. vm_compute. split; reflexivity.
Qed.
Print Assumptions C43_deterministic_refuted.

(** *** Panics *)
Theorem C43_no_panic_partial : forall (FF : FloatFmt) (EE : ExprEnv) e ctx, calm e -> eval e ctx <> Panic.
Proof. intros FF EE e ctx H. by apply calm_safe. Qed.
Print Assumptions C43_no_panic_partial.
Example C43_no_panic_example : calm two_keys.
Proof.
  assert (S : forall op v, op ∉ loop_ops -> op ∉ ["@rnd"; "@range"]%string -> calm (Expr op None (LVal v))). { intros op v N1 N2. constructor; try done. intros ->. set_solver. }
  assert (L : forall es, Forall calm es -> calm (listE es)). { intros es F. constructor; try done; [set_solver..|]. intros es0 E. by injection E as <-. }
  assert (O : forall op e, op ∉ ["@rnd"; "@range"; "@map"]%string -> calm e -> calm (op1 op e)). { intros op e N C. constructor; try done; [set_solver|set_solver|]. intros a E. by injection E as <-. }
  constructor; try done; [set_solver..|]. intros m E. injection E as <-. apply List.Forall_cons; [|apply List.Forall_cons; [|apply List.Forall_nil]]; cbn [snd].
  - apply S; set_solver.
  - rewrite opl_op1. apply O; [set_solver|]. apply L. apply List.Forall_cons; [|apply List.Forall_cons; [|apply List.Forall_nil]]; apply S; set_solver.
Qed.
(** @map with one argument, @rnd with an empty range and operators without argument panic. *)
Theorem C43_panic_refuted : forall (FF : FloatFmt) (EE : ExprEnv) ctx e n, (ex_op e <> "@list"%string -> eval (op1 "@map" e) ctx = Panic) /\ eval (opl "@rnd" [intE n; intE n]) ctx = Panic /\
  eval (Expr "@and" None (LVal JNull)) ctx = Panic.
Proof.
  intros FF EE ctx e n. split; [|split; [|done]].
  - intros N. unfold op1. rewrite eval_eq. unfold eval_node. change (opcode_of "@map") with OMap. cbn [parts_of p_args]. destruct e as [op a l]. rewrite exp_list_other by done. done.
  - change (eval (opl "@rnd" [intE n; intE n]) ctx) with (if wrap64 (n - n) <=? 0 then @Panic json else Val (JInt (wrap64 (intn (wrap64 (n - n)) + n)))). by rewrite Z.sub_diag.
Qed.
Print Assumptions C43_panic_refuted.
