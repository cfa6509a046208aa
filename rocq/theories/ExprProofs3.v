(** Proofs about evaluation: the operators. *)
From Verif Require Import JsonModel ObjModel JsonProofs ValueSpec ValueProofs ViewSpec ViewProofs ExprModel ExprSpec ExprProofs ExprProofs2.
#[local] Open Scope Z_scope.

Section laws.
Context {FF : FloatFmt} {EE : ExprEnv}.

Lemma test_true f ctx b : test f ctx = Val b <-> f ctx = Val (JBool b).
Proof.
  unfold test. destruct (f ctx) as [v| |]; cbn; [|done..]. destruct v; cbn; split; intros E; try done; by injection E as <-.
Qed.
Lemma junction_iff stop es ctx v : junction stop (map eval es) ctx = Val v <->
  (v = JBool (negb stop) /\ Forall (fun e => gives e ctx (JBool (negb stop))) es) \/
  (v = JBool stop /\ exists es1 e es2, es = es1 ++ e :: es2 /\ Forall (fun e => gives e ctx (JBool (negb stop))) es1 /\ gives e ctx (JBool stop)).
Proof.
  revert v. induction es as [|e es IH]; intros v; cbn [map junction].
  - split.
    + intros E. injection E as <-. left. by split; [|constructor].
    + intros [[-> _]|[_ (es1 & e & es2 & E & _)]]; [done|]. by destruct es1.
  - split.
    + destruct (test (eval e) ctx) as [b| |] eqn:T; [|done..]. cbn [rbind]. apply test_true in T. destruct (Bool.eqb b stop) eqn:B.
      * apply eqb_prop in B. subst b. intros E. injection E as <-. right. split; [done|]. by exists [], e, es.
      * assert (b = negb stop) as -> by by destruct b, stop. intros E. apply IH in E. destruct E as [[-> F]|[-> (es1 & e' & es2 & -> & F & G)]].
        -- left. split; [done|]. by constructor.
        -- right. split; [done|]. exists (e :: es1), e', es2. split; [done|]. split; [by constructor|done].
    + intros [[-> F]|[-> (es1 & e' & es2 & E & F & G)]].
      * inversion_clear F as [|? ? F1 F2]. apply test_true in F1. rewrite F1. cbn [rbind]. replace (Bool.eqb (negb stop) stop) with false by by destruct stop. apply IH. by left.
      * destruct es1 as [|e1 es1]; cbn in E; injection E as -> ->.
        -- apply test_true in G. rewrite G. cbn [rbind]. by rewrite eqb_reflx.
        -- inversion_clear F as [|? ? F1 F2]. apply test_true in F1. rewrite F1. cbn [rbind]. replace (Bool.eqb (negb stop) stop) with false by by destruct stop. apply IH. right.
           split; [done|]. by exists es1, e', es2.
Qed.
Lemma and_eval es ctx : eval (opl "@and" es) ctx = junction false (map eval es) ctx.
Proof. done. Qed.
Lemma or_eval es ctx : eval (opl "@or" es) ctx = junction true (map eval es) ctx.
Proof. done. Qed.
Lemma not_eval e ctx : eval (op1 "@not" e) ctx = rbind (eval e ctx) (fun v => match as_bool v with Some b => Val (JBool (negb b)) | None => Err end).
Proof. done. Qed.
Lemma list_eval es ctx : eval (listE es) ctx = rbind (list_loop (map eval es) ctx) (fun l => Val (JList (unpack l))).
Proof. done. Qed.

Lemma list_loop_iff es ctx vs : list_loop (map eval es) ctx = Val vs <-> all_give es ctx vs.
Proof.
  revert vs. induction es as [|e es IH]; intros vs; cbn [map list_loop].
  - split; intros E; [injection E as <-; constructor|by inversion_clear E].
  - split.
    + destruct (eval e ctx) as [v| |] eqn:E1; [|done..]. cbn [rbind]. destruct (list_loop (map eval es) ctx) as [r| |]; [|done..]. cbn [rbind]. intros E. injection E as <-. constructor; [done|].
      by apply IH.
    + intros E. inversion_clear E as [|? v ? r E1 E2]. unfold gives in E1. rewrite E1. cbn [rbind]. apply IH in E2. rewrite E2. done.
Qed.
Lemma list_gives es ctx vs : all_give es ctx vs -> gives (listE es) ctx (JList (unpack vs)).
Proof. intros H. apply list_loop_iff in H. unfold gives. rewrite list_eval, H. done. Qed.
Lemma unpack_id vs : match vs with v :: _ => not_list v | [] => True end -> unpack vs = vs.
Proof. destruct vs as [|v vs]; [done|]. by destruct v. Qed.
Lemma opl_op1 op es : opl op es = op1 op (listE es).
Proof. done. Qed.

(** *** Equality *)
Lemma exact_iff v : exact_value v <-> nonan v /\ nonegzero v.
Proof.
  induction v as [|b|n|f|s|l IH|m IH] using json_rect'; split; intros H; try (split; constructor); try (constructor; done).
  - by inversion_clear H.
  - by inversion_clear H.
  - destruct H as [H1 H2]. constructor; [by inversion_clear H1|by inversion_clear H2].
  - inversion_clear H as [| | | | |? F|]. clear -IH F. induction l as [|x l IHl]; constructor; inversion_clear IH as [|? ? I1 I2]; inversion_clear F as [|? ? F1 F2]; [by apply I1|by apply IHl].
  - inversion_clear H as [| | | | |? F|]. clear -IH F. induction l as [|x l IHl]; constructor; inversion_clear IH as [|? ? I1 I2]; inversion_clear F as [|? ? F1 F2]; [by apply I1|by apply IHl].
  - destruct H as [H1 H2]. constructor. inversion_clear H1 as [| | | | |? F|]. inversion_clear H2 as [| | | | |? G|].
    clear -IH F G. induction l as [|x l IHl]; constructor; inversion_clear IH as [|? ? I1 I2]; inversion_clear F as [|? ? F1 F2]; inversion_clear G as [|? ? G1 G2]; [by apply I1|by apply IHl].
  - inversion_clear H as [| | | | | |? F]. clear -IH F. induction m as [|x l IHl]; constructor; inversion_clear IH as [|? ? I1 I2]; inversion_clear F as [|? ? F1 F2]; [by apply I1|by apply IHl].
  - inversion_clear H as [| | | | | |? F]. clear -IH F. induction m as [|x l IHl]; constructor; inversion_clear IH as [|? ? I1 I2]; inversion_clear F as [|? ? F1 F2]; [by apply I1|by apply IHl].
  - destruct H as [H1 H2]. constructor. inversion_clear H1 as [| | | | | |? F]. inversion_clear H2 as [| | | | | |? G].
    clear -IH F G. induction m as [|x l IHl]; constructor; inversion_clear IH as [|? ? I1 I2]; inversion_clear F as [|? ? F1 F2]; inversion_clear G as [|? ? G1 G2]; [by apply I1|by apply IHl].
Qed.
Lemma exact_equal v w : exact_value v -> exact_value w -> go_equal v w = true <-> v = w.
Proof.
  intros H1 H2. apply exact_iff in H1, H2. destruct H1 as [A1 A2], H2 as [B1 B2]. split; [by apply go_equal_nnz|]. intros <-. by apply go_refl.
Qed.

(** *** Loops over a list *)
Lemma filter_gives f (p : json -> bool) ctx l : computes f ctx l (fun x => JBool (p x)) -> filter_loop (eval f) ctx l = Val (List.filter p l).
Proof.
  induction l as [|x l IH]; intros H; [done|]. cbn [filter_loop List.filter]. assert (T : test (eval f) (with_subject ctx x) = Val (p x)). { apply test_true. apply H. left. }
  rewrite T. cbn [rbind]. rewrite IH; [done|]. intros y Y. apply H. by right.
Qed.
Lemma map_gives f (g : json -> json) ctx l : computes f ctx l g -> map_loop (eval f) ctx l = Val (map g l).
Proof.
  induction l as [|x l IH]; intros H; [done|]. cbn [map_loop map]. assert (T : eval f (with_subject ctx x) = Val (g x)). { apply H. left. }
  rewrite T. cbn [rbind]. rewrite IH; [done|]. intros y Y. apply H. by right.
Qed.
Lemma any_gives f (p : json -> bool) ctx l : computes f ctx l (fun x => JBool (p x)) -> quant_loop false true true (eval f) ctx l = Val (JBool (existsb p l)).
Proof.
  induction l as [|x l IH]; intros H; [done|]. cbn [quant_loop existsb]. assert (T : test (eval f) (with_subject ctx x) = Val (p x)). { apply test_true. apply H. left. }
  rewrite T. cbn [rbind]. rewrite IH; [by destruct (p x)|]. intros y Y. apply H. by right.
Qed.
Lemma all_gives f (p : json -> bool) ctx l : computes f ctx l (fun x => JBool (p x)) -> quant_loop true false false (eval f) ctx l = Val (JBool (forallb p l)).
Proof.
  induction l as [|x l IH]; intros H; [done|]. cbn [quant_loop forallb]. assert (T : test (eval f) (with_subject ctx x) = Val (p x)). { apply test_true. apply H. left. }
  rewrite T. cbn [rbind]. rewrite IH; [by destruct (p x)|]. intros y Y. apply H. by right.
Qed.
Lemma none_false f ctx l v : quant_loop false true false (eval f) ctx l = Val v -> v = JBool false.
Proof.
  induction l as [|x l IH]; cbn [quant_loop]; intros E; [by injection E as <-|]. destruct (test (eval f) (with_subject ctx x)) as [b| |]; [|done..]. cbn [rbind] in E.
  destruct (Bool.eqb b true); [by injection E as <-|auto].
Qed.
Lemma filter_eval f g ctx l : gives g ctx (JList l) -> eval (opl "@filter" [f; g]) ctx = rbind (filter_loop (eval f) ctx l) (fun r => Val (JList r)).
Proof. intros H. change (eval (opl "@filter" [f; g]) ctx) with (on_list ctx (eval g) (fun l => rbind (filter_loop (eval f) ctx l) (fun r => Val (JList r)))). unfold on_list. by rewrite H. Qed.
Lemma map_eval f g ctx l : gives g ctx (JList l) -> eval (opl "@map" [f; g]) ctx = rbind (map_loop (eval f) ctx l) (fun r => Val (JList r)).
Proof. intros H. change (eval (opl "@map" [f; g]) ctx) with (on_list ctx (eval g) (fun l => rbind (map_loop (eval f) ctx l) (fun r => Val (JList r)))). unfold on_list. by rewrite H. Qed.
Lemma any_eval f g ctx l : gives g ctx (JList l) -> eval (opl "@any" [f; g]) ctx = quant_loop false true true (eval f) ctx l.
Proof. intros H. change (eval (opl "@any" [f; g]) ctx) with (on_list ctx (eval g) (quant_loop false true true (eval f) ctx)). unfold on_list. by rewrite H. Qed.
Lemma all_eval f g ctx l : gives g ctx (JList l) -> eval (opl "@all" [f; g]) ctx = quant_loop true false false (eval f) ctx l.
Proof. intros H. change (eval (opl "@all" [f; g]) ctx) with (on_list ctx (eval g) (quant_loop true false false (eval f) ctx)). unfold on_list. by rewrite H. Qed.
Lemma none_eval es ctx v : gives (opl "@none" es) ctx v -> v = JBool false.
Proof.
  unfold gives. change (eval (opl "@none" es) ctx) with
    (with_args (Some (Some (map eval es))) (fun fs => match fs with [f; g] => on_list ctx g (quant_loop false true false f ctx) | _ => Err end)).
  cbn [with_args]. destruct es as [|f [|g [|h es]]]; cbn [map]; try done. unfold on_list. destruct (eval g ctx) as [w| |]; [|done..]. cbn [rbind].
  destruct (as_list w) as [l|]; [|done]. cbn [or_err rbind]. apply none_false.
Qed.

(** *** Numbers and strings *)
Lemma collect_map {A B} (f : A -> option B) (g : B -> A) l : (forall x, f (g x) = Some x) -> collect f (map g l) = Some l.
Proof. intros H. induction l as [|x l IH]; [done|]. cbn. rewrite H. cbn. by rewrite IH. Qed.
Lemma append_nil s : String.append s EmptyString = s.
Proof. induction s as [|c s IH]; [done|]. change (String c (String.append s EmptyString) = String c s). by rewrite IH. Qed.
Lemma append_assoc_fold l s : foldl String.append s l = String.append s (String.concat EmptyString l).
Proof.
  revert s. induction l as [|x l IH]; intros s; cbn [foldl].
  - cbn [String.concat]. symmetry. apply append_nil.
  - rewrite IH. rewrite app_assoc_s. f_equal. destruct l; [|done]. apply append_nil.
Qed.
Lemma ints_nums ns : as_nums (JList (map JInt ns)) = Some (Ints ns).
Proof. unfold as_nums, as_list_of. cbn. by rewrite (collect_map as_int JInt). Qed.
Lemma wrap_add a b : wrap64 (wrap64 a + b) = wrap64 (a + b).
Proof.
  unfold wrap64. replace ((a + 2 ^ 63) mod 2 ^ 64 - 2 ^ 63 + b + 2 ^ 63) with ((a + 2 ^ 63) mod 2 ^ 64 + b) by lia.
  rewrite Zplus_mod_idemp_l. f_equal. f_equal. lia.
Qed.
Definition zsum (ns : list Z) : Z := foldr Z.add 0 ns.
Lemma sum_fold ns a : foldl (fun a b => wrap64 (a + b)) (wrap64 a) ns = wrap64 (a + zsum ns).
Proof.
  revert a. induction ns as [|n ns IH]; intros a; cbn [foldl zsum foldr]; [by rewrite Z.add_0_r|]. rewrite wrap_add, IH. f_equal. unfold zsum. lia.
Qed.
Lemma wrap_in n : in_int64 n = true -> wrap64 n = n.
Proof.
  unfold in_int64, wrap64. intros H. apply andb_true_iff in H. destruct H as [H1 H2]. apply Z.leb_le in H1. apply Z.ltb_lt in H2.
  rewrite Z.mod_small; lia.
Qed.
Lemma wrap_fits n : - 2 ^ 63 <= wrap64 n < 2 ^ 63 /\ (wrap64 n - n) mod 2 ^ 64 = 0.
Proof.
  unfold wrap64. split.
  - pose proof (Z.mod_pos_bound (n + 2 ^ 63) (2 ^ 64)). lia.
  - replace ((n + 2 ^ 63) mod 2 ^ 64 - 2 ^ 63 - n) with ((n + 2 ^ 63) mod 2 ^ 64 - (n + 2 ^ 63)) by lia. rewrite Zminus_mod_idemp_l. by rewrite Z.sub_diag.
Qed.
Lemma floats_nums vs fs : Forall2 (fun v f => v = JFloat f \/ exists n, v = JInt n /\ f = f64_of_int n) vs fs -> (exists f, JFloat f ∈ vs) ->
  as_nums (JList vs) = Some (Floats fs).
Proof.
  intros F [f X]. unfold as_nums, as_list_of. cbn [as_list mbind option_bind].
  assert (A : collect as_int vs = None).
  { clear F. induction vs as [|v vs IH]; [by apply elem_of_nil in X|]. apply elem_of_cons in X as [<-|X]; [done|]. cbn. rewrite (IH X). by destruct (as_int v). }
  rewrite A. assert (B : collect as_float vs = Some fs).
  { clear X A. induction F as [|v g vs fs G F IH]; [done|]. cbn. rewrite IH. destruct G as [->|(n & -> & ->)]; done. }
  by rewrite B.
Qed.
Lemma repeat_x_length n : String.length (repeat_x n) = n.
Proof. induction n as [|n IH]; [done|]. cbn. by rewrite IH. Qed.
Lemma append_length_s a b : String.length (a +:+ b) = (String.length a + String.length b)%nat.
Proof. induction a as [|c a IH]; [done|]. change (S (String.length (a +:+ b)) = S (String.length a) + String.length b)%nat. by rewrite IH. Qed.
Lemma substring_length n s : (n <= String.length s)%nat -> String.length (String.substring 0 n s) = n.
Proof. revert s. induction n as [|n IH]; intros s H; [by destruct s|]. destruct s as [|c s]; [cbn in H; lia|]. cbn in *. rewrite IH; lia. Qed.
Lemma hash_length h : String.length (if (String.length h <? 6)%nat then h +:+ repeat_x (6 - String.length h) else String.substring 0 6 h) = 6%nat.
Proof.
  destruct (Nat.ltb_spec (String.length h) 6) as [L|L]; [rewrite append_length_s, repeat_x_length; lia|by apply substring_length].
Qed.
Lemma subject_path q d x : x <> JNull -> q <> String dollar "." ->
  get_path (Ctx d x) (String dollar (String dollar q)) = get_path (Ctx x JNull) (String dollar q).
Proof.
  intros Hx Hq. assert (Hn : is_null x = false) by by destruct x. unfold get_path. rewrite !(decide_True _ _ (eq_refl : dollar = dollar)).
  rewrite (decide_False (P := String dollar (String dollar q) = "$.")) by done.
  destruct (decide (q = ".")) as [->|Q].
  - cbn [c_object c_subject]. rewrite decide_True by done. rewrite decide_True by done. by rewrite Hn.
  - rewrite (decide_False (P := String dollar (String dollar q) = "$$.")) by (intros E; by injection E as E).
    rewrite (decide_False (P := String dollar q = "$.")) by (intros E; by injection E as E).
    rewrite (decide_False (P := String dollar q = "$$.")) by (intros E; by injection E as E).
    rewrite bool_decide_true by done. cbn [c_object c_subject]. rewrite Hn. cbn [andb negb]. destruct q as [|c q]; [done|]. cbn [is_null negb]. by rewrite andb_false_r.
Qed.
Lemma subject_eval q d x : x <> JNull -> q <> String dollar "." ->
  eval (strE (String dollar (String dollar q))) (Ctx d x) = eval (strE (String dollar q)) (Ctx x JNull).
Proof.
  intros Hx Hq.
  change (eval (strE (String dollar (String dollar q))) (Ctx d x)) with (rbind (get_path (Ctx d x) (String dollar (String dollar q))) (fun v => Val (if is_str "@now" v then JStr now else v))).
  by rewrite subject_path.
Qed.
Lemma fold_min ns a : (forall n, n ∈ a :: ns -> foldl Z.min a ns <= n) /\ foldl Z.min a ns ∈ a :: ns.
Proof.
  revert a. induction ns as [|n ns IH]; intros a; cbn [foldl].
  - split; [|left]. intros n H. apply elem_of_list_singleton in H. lia.
  - destruct (IH (Z.min a n)) as [H1 H2]. split.
    + intros m M. apply elem_of_cons in M. destruct M as [->|M].
      * transitivity (Z.min a n); [apply H1; left|lia].
      * apply elem_of_cons in M. destruct M as [->|M]; [transitivity (Z.min a n); [apply H1; left|lia]|]. apply H1. by right.
    + apply elem_of_cons in H2. destruct H2 as [H2|H2]; [|by right; right]. rewrite H2. destruct (Z.min_spec a n) as [[_ ->]|[_ ->]]; [left|right; left].
Qed.
Lemma fold_max ns a : (forall n, n ∈ a :: ns -> n <= foldl Z.max a ns) /\ foldl Z.max a ns ∈ a :: ns.
Proof.
  revert a. induction ns as [|n ns IH]; intros a; cbn [foldl].
  - split; [|left]. intros n H. apply elem_of_list_singleton in H. lia.
  - destruct (IH (Z.max a n)) as [H1 H2]. split.
    + intros m M. apply elem_of_cons in M. destruct M as [->|M].
      * transitivity (Z.max a n); [lia|apply H1; left].
      * apply elem_of_cons in M. destruct M as [->|M]; [transitivity (Z.max a n); [lia|apply H1; left]|]. apply H1. by right.
    + apply elem_of_cons in H2. destruct H2 as [H2|H2]; [|by right; right]. rewrite H2. destruct (Z.max_spec a n) as [[_ ->]|[_ ->]]; [right; left|left].
Qed.
(** *** Maps *)
Definition inert (v : json) : Prop := match v with JStr s => plain_key s | _ => True end.
Lemma deref_inert ctx v : inert v -> deref ctx v = Val v.
Proof. destruct v; cbn; try done. destruct s as [|c s]; [done|]. cbn. intros H. by rewrite decide_False. Qed.
Lemma entries_give ctx (m : list (string * expr)) vs : Forall (fun kv => kv.1 <> EmptyString) m -> Forall2 (fun kv v => gives kv.2 ctx v /\ inert v) m vs ->
  entries ctx (map (fun kv => (kv.1, eval kv.2)) m) = Some (zip (map fst m) vs).
Proof.
  intros H. revert vs. induction H as [|[k e] m H1 H2 IH]; intros vs F; inversion_clear F as [|? v ? vs' [F1 F2] F3]; [done|].
  cbn [map entries zip]. unfold entry. cbn [fst snd] in *. destruct k as [|c k]; [done|]. rewrite F1. cbn [rbind]. rewrite deref_inert by done. rewrite (IH vs') by done. done.
Qed.
Lemma msets_ks l : forall acc, ksorted acc -> ksorted (msets acc l).
Proof. induction l as [|x l IH]; intros acc W; [done|]. cbn. apply IH. by apply ksorted_set. Qed.
Lemma msets_get l : forall acc k, ksorted acc -> NoDup (map fst l) -> mget (msets acc l) k = match assoc k l with Some v => Some v | None => mget acc k end.
Proof.
  induction l as [|[k0 v0] l IH]; intros acc k W N; [done|]. cbn in N. apply NoDup_cons in N. destruct N as [N1 N].
  change (msets acc ((k0, v0) :: l)) with (msets (mset acc k0 v0) l). rewrite IH; [|by apply ksorted_set|done]. unfold assoc. cbn [List.find fst].
  destruct (String.eqb k0 k) eqn:E.
  - apply String.eqb_eq in E. subst k0. cbn. destruct (List.find (fun kv => String.eqb kv.1 k) l) as [[k1 v1]|] eqn:F.
    + exfalso. apply find_some in F. destruct F as [F1 F2]. apply String.eqb_eq in F2. cbn in F2. subst k1. apply N1. apply elem_of_list_fmap. exists (k, v1). split; [done|].
      by apply elem_of_list_In.
    + cbn. by rewrite mget_set_eq.
  - apply String.eqb_neq in E. destruct (List.find (fun kv => String.eqb kv.1 k) l) as [[k1 v1]|]; cbn; [done|]. by rewrite mget_set_ne.
Qed.
Lemma dict_eval m ctx : eval (dictE m) ctx = rbind (dict_loop (in_order (map (fun kv => (kv.1, eval kv.2)) m)) ctx []) (fun m => Val (JMap m)).
Proof. done. Qed.
Lemma dict_gives m ctx vs : is_order iterate -> NoDup (map fst m) -> Forall (fun kv => kv.1 <> EmptyString /\ plain_key kv.1) m ->
  Forall2 (fun kv v => gives kv.2 ctx v /\ inert v) m vs -> gives (dictE m) ctx (JMap (msets [] (zip (map fst m) vs))).
Proof.
  intros O N F G. unfold gives. rewrite dict_eval. set (m1 := map (fun kv : string * expr => (kv.1, eval kv.2)) m).
  assert (N1 : NoDup (map fst m1)) by by (unfold m1; rewrite map_map).
  assert (F1 : Forall (fun kf : string * clo => plain_key kf.1) m1). { unfold m1. clear -F. induction F as [|[k e] m [_ H] F IH]; constructor; done. }
  pose proof (dict_perm ctx m1 (in_order m1)) as D. pose proof (dict_entries ctx m1 F1 []) as D2.
  unfold m1 in D2 at 2. rewrite (entries_give ctx m vs) in D2; [|by eapply Forall_impl; [exact F|]; intros x [H _]|done].
  assert (D' : agree True (dict_loop m1 ctx []) (dict_loop (in_order m1) ctx [])). { apply D; [|done..]. symmetry. by apply in_order_perm. }
  destruct (dict_loop m1 ctx []) as [a| |]; cbn in D2; try done. subst a. destruct (dict_loop (in_order m1) ctx []) as [b| |]; cbn in D'; try done. by subst b.
Qed.
End laws.
