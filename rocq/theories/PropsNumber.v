(** Property C43, continued: numbers in strings, rounding, division, and
    arguments that are missing. *)
From Coq Require Import Floats.SpecFloat.
From Verif Require Import JsonModel JsonProofs ExprModel ExprSpec ExprProofs ExprProofs3 TestExpr.
Open Scope Z_scope.

Lemma digit_char x : (x < 10)%N -> digit (pretty_N_char x) = Some (Z.of_N x).
Proof.
  intros H. assert (In x (map N.of_nat (seq 0 10))) as I.
  { apply in_map_iff. exists (N.to_nat x). split; [apply N2Nat.id|]. apply in_seq. lia. }
  cbn in I. by repeat (destruct I as [<-|I]; [reflexivity|]).
Qed.
Lemma digits_go x : forall s, digits 0 (pretty_N_go x s) = digits (Z.of_N x) s.
Proof.
  induction (N.lt_wf_0 x) as [x _ IH]. intros s. destruct (decide (0 < x)%N) as [H|H].
  - rewrite pretty_N_go_step by done. rewrite IH by (apply N.div_lt; lia). cbn [digits].
    rewrite digit_char by (by apply N.mod_lt). f_equal.
    rewrite (N.div_mod x 10) at 3 by done. rewrite N2Z.inj_add, N2Z.inj_mul. done.
  - assert (x = 0)%N as -> by lia. done.
Qed.
Lemma digits_pretty x : digits 0 (pretty x) = Some (Z.of_N x) /\ pretty x <> EmptyString.
Proof.
  unfold pretty, pretty_N. case_decide as H; [by subst|]. split; [by rewrite digits_go|].
  intros E. assert (digits 0 (pretty_N_go x "") = Some 0) as Z by by rewrite E. rewrite digits_go in Z. cbn in Z.
  injection Z as Z. destruct x; [done|]. cbn in Z. lia.
Qed.
Lemma parse_pretty_N x : in_int64 (Z.of_N x) = true -> parse_int (pretty x) = Some (Z.of_N x).
Proof.
  intros H. destruct (digits_pretty x) as [D N]. unfold parse_int. destruct (pretty x) as [|c t] eqn:E; [done|].
  rewrite decide_False by (intros ->; done). rewrite decide_False by (intros ->; done). by rewrite D, H.
Qed.
Lemma parse_neg p : parse_int (String (ch 45) (pretty (Npos p))) = if in_int64 (Z.neg p) then Some (Z.neg p) else None.
Proof.
  destruct (digits_pretty (Npos p)) as [D N]. unfold parse_int. rewrite decide_True by done.
  destruct (pretty (Npos p)) as [|c t] eqn:E; [done|]. by rewrite D.
Qed.
Lemma parse_enc n : parse_int (enc_int n) = if in_int64 n then Some n else None.
Proof.
  unfold enc_int. destruct n as [|p|p]; [done| |].
  - change (pretty (Z.pos p)) with (pretty (Npos p)). destruct (digits_pretty (Npos p)) as [D N].
    unfold parse_int. destruct (pretty (Npos p)) as [|c t] eqn:E; [done|].
    rewrite decide_False by (intros ->; done). rewrite decide_False by (intros ->; done). by rewrite D.
  - apply parse_neg.
Qed.

(** A string that holds an integer is as good as the integer, wherever a number
    is asked for, and exactly within 64 bits. *)
Theorem C43_int_string : forall (FF : FloatFmt) (EE : ExprEnv) e ctx n, gives e ctx (JStr (enc_int n)) ->
  (- 2 ^ 63 <= n < 2 ^ 63 -> gives (op1 "@int" e) ctx (JInt n)) /\
  (~ (- 2 ^ 63 <= n < 2 ^ 63) -> eval (op1 "@int" e) ctx = Err).
Proof.
  intros FF EE e ctx n H. unfold gives in *.
  change (eval (op1 "@int" e) ctx) with (rbind (eval e ctx) (fun v => or_err (JInt <$> as_int v))).
  rewrite H. cbn [rbind as_int]. rewrite parse_enc.
  assert (in_int64 n = true <-> - 2 ^ 63 <= n < 2 ^ 63) as I.
  { unfold in_int64. rewrite andb_true_iff, Z.leb_le, Z.ltb_lt. done. }
  split; intros R.
  - apply I in R. by rewrite R.
  - destruct (in_int64 n); [|done]. exfalso. apply R. by apply I.
Qed.
Print Assumptions C43_int_string.
Theorem C43_arith_string : forall (FF : FloatFmt) (EE : ExprEnv) e f ctx ns vs name,
  Forall2 (fun n v => v = JInt n \/ v = JStr (enc_int n)) ns vs -> Forall (fun n => - 2 ^ 63 <= n < 2 ^ 63) ns ->
  gives e ctx (JList (map JInt ns)) -> gives f ctx (JList vs) ->
  name ∈ ["@add"; "@sub"; "@mul"; "@sum"; "@min"; "@max"; "@lt"; "@lte"; "@gt"; "@gte"]%string ->
  eval (op1 name f) ctx = eval (op1 name e) ctx.
Proof.
  intros FF EE e f ctx ns vs name F R H1 H2 Nm. unfold gives in *.
  assert (as_nums (JList vs) = as_nums (JList (map JInt ns))) as E.
  { assert (as_list_of as_int (JList vs) = Some ns /\ as_list_of as_int (JList (map JInt ns)) = Some ns) as [E1 E2].
    { unfold as_list_of. cbn [as_list mbind option_bind]. clear H1 H2 Nm.
      induction F as [|n v ns vs Hv F IH]; [done|]. apply Forall_cons in R as [Rn R]. destruct (IH R) as [I1 I2].
      cbn [map collect]. rewrite I1, I2. cbn [mbind option_bind as_int].
      assert (in_int64 n = true) as B by (unfold in_int64; rewrite andb_true_iff, Z.leb_le, Z.ltb_lt; done).
      destruct Hv as [->| ->]; cbn [as_int]; [done|]. by rewrite parse_enc, B. }
    unfold as_nums. by rewrite E1, E2. }
  assert (as_pair (JList vs) = as_pair (JList (map JInt ns))) as Ep by (unfold as_pair; by rewrite E).
  repeat (apply elem_of_cons in Nm as [->|Nm]). 11: by apply elem_of_nil in Nm.
  - change (rbind (eval f ctx) (arith_op Z.add fadd) = rbind (eval e ctx) (arith_op Z.add fadd)). rewrite H1, H2. cbn [rbind]. unfold arith_op. by rewrite Ep.
  - change (rbind (eval f ctx) (arith_op Z.sub fsub) = rbind (eval e ctx) (arith_op Z.sub fsub)). rewrite H1, H2. cbn [rbind]. unfold arith_op. by rewrite Ep.
  - change (rbind (eval f ctx) (arith_op Z.mul fmul) = rbind (eval e ctx) (arith_op Z.mul fmul)). rewrite H1, H2. cbn [rbind]. unfold arith_op. by rewrite Ep.
  - change (rbind (eval f ctx) op_sum = rbind (eval e ctx) op_sum). rewrite H1, H2. cbn [rbind]. unfold op_sum. by rewrite E.
  - change (rbind (eval f ctx) (best_op Z.min fmin) = rbind (eval e ctx) (best_op Z.min fmin)). rewrite H1, H2. cbn [rbind]. unfold best_op. by rewrite E.
  - change (rbind (eval f ctx) (best_op Z.max fmax) = rbind (eval e ctx) (best_op Z.max fmax)). rewrite H1, H2. cbn [rbind]. unfold best_op. by rewrite E.
  - change (rbind (eval f ctx) (cmp_op Z.ltb SFltb) = rbind (eval e ctx) (cmp_op Z.ltb SFltb)). rewrite H1, H2. cbn [rbind]. unfold cmp_op. by rewrite Ep.
  - change (rbind (eval f ctx) (cmp_op Z.leb SFleb) = rbind (eval e ctx) (cmp_op Z.leb SFleb)). rewrite H1, H2. cbn [rbind]. unfold cmp_op. by rewrite Ep.
  - change (rbind (eval f ctx) (cmp_op (fun a b => Z.ltb b a) (fun a b => SFltb b a)) = rbind (eval e ctx) (cmp_op (fun a b => Z.ltb b a) (fun a b => SFltb b a))). rewrite H1, H2. cbn [rbind]. unfold cmp_op. by rewrite Ep.
  - change (rbind (eval f ctx) (cmp_op (fun a b => Z.leb b a) (fun a b => SFleb b a)) = rbind (eval e ctx) (cmp_op (fun a b => Z.leb b a) (fun a b => SFleb b a))). rewrite H1, H2. cbn [rbind]. unfold cmp_op. by rewrite Ep.
Qed.
Print Assumptions C43_arith_string.
Example C43_string_example : gives (op1 "@int" (strE "-12")) here (JInt (-12)) /\
  gives (opl "@add" [strE "-12"; strE "5"]) here (JInt (-7)) /\
  eval (op1 "@int" (strE "9223372036854775808")) here = Err.
Proof. vm_compute. split_and!; reflexivity. Qed.

(** @floor and @ceil: the next integer below and above.  A float is plus or minus
    [m * 2 ^ x]; with [0 <= x] it is an integer already, and is given unchanged. *)
Definition float_int (n : Z) (s : bool) : spec_float := if Z.eqb n 0 then S754_zero s else f64_of_int n.
Lemma normalize_sign n s : binary_normalize 53 1024 n 0 s = float_int n s.
Proof. unfold float_int, f64_of_int. by destruct n. Qed.
Theorem C43_round : forall (FF : FloatFmt) (EE : ExprEnv) e ctx s m x, gives e ctx (JFloat (S754_finite s m x)) ->
  let v := if s then Zneg m else Zpos m in
  gives (op1 "@abs" e) ctx (JFloat (S754_finite false m x)) /\
  (0 <= x -> gives (op1 "@floor" e) ctx (JFloat (S754_finite s m x)) /\ gives (op1 "@ceil" e) ctx (JFloat (S754_finite s m x))) /\
  (x < 0 -> exists lo hi, gives (op1 "@floor" e) ctx (JFloat (float_int lo s)) /\ gives (op1 "@ceil" e) ctx (JFloat (float_int hi s)) /\
     lo * 2 ^ (- x) <= v < (lo + 1) * 2 ^ (- x) /\ (hi - 1) * 2 ^ (- x) < v <= hi * 2 ^ (- x)).
Proof.
  intros FF EE e ctx s m x H v. unfold gives in *.
  change (eval (op1 "@abs" e) ctx) with (rbind (eval e ctx) (float_op SFabs)).
  change (eval (op1 "@floor" e) ctx) with (rbind (eval e ctx) (float_op ffloor)).
  change (eval (op1 "@ceil" e) ctx) with (rbind (eval e ctx) (float_op fceil)).
  rewrite H. cbn [rbind float_op as_float]. split; [done|].
  assert (cond_Zopp s (Zpos m) = v) as V by (by destruct s). unfold ffloor, fceil. rewrite V.
  split; intros X.
  - apply Z.leb_le in X. by rewrite X.
  - assert ((0 <=? x) = false) as -> by (by apply Z.leb_gt).
    exists (Z.shiftr v (- x)), (- Z.shiftr (- v) (- x)). rewrite !normalize_sign. split; [done|]. split; [done|].
    rewrite !Z.shiftr_div_pow2 by lia. assert (0 < 2 ^ (- x)) as P by (apply Z.pow_pos_nonneg; lia).
    pose proof (Z.div_mod v (2 ^ (- x))) as D1. pose proof (Z.mod_pos_bound v (2 ^ (- x)) P) as M1.
    pose proof (Z.div_mod (- v) (2 ^ (- x))) as D2. pose proof (Z.mod_pos_bound (- v) (2 ^ (- x)) P) as M2.
    split; nia.
Qed.
Print Assumptions C43_round.
(** @div always computes with floats. *)
Theorem C43_div : forall (FF : FloatFmt) (EE : ExprEnv) e ctx a b x y, gives e ctx (JList [a; b]) ->
  (a = JFloat x \/ exists n, a = JInt n /\ x = f64_of_int n) -> (b = JFloat y \/ exists n, b = JInt n /\ y = f64_of_int n) ->
  gives (op1 "@div" e) ctx (JFloat (SFdiv 53 1024 x y)).
Proof.
  intros FF EE e ctx a b x y H Ha Hb. unfold gives in *. change (eval (op1 "@div" e) ctx) with (rbind (eval e ctx) op_div).
  rewrite H. cbn [rbind]. unfold op_div. cbn [as_list].
  destruct Ha as [->|(n & -> & ->)], Hb as [->|(n' & -> & ->)]; done.
Qed.
Print Assumptions C43_div.
Example C43_round_example : gives (op1 "@floor" (opl "@div" [intE (-7); intE 2])) here (JFloat (f64_of_int (-4))) /\
  gives (op1 "@ceil" (opl "@div" [intE (-7); intE 2])) here (JFloat (f64_of_int (-3))) /\
  gives (op1 "@abs" (opl "@div" [intE (-7); intE 2])) here (JFloat (fdiv (f64_of_int 7) (f64_of_int 2))).
Proof. vm_compute. split_and!; reflexivity. Qed.

(** @switch without a true condition gives null, and so does @cond without an
    else branch. *)
Theorem C43_switch_none : forall (FF : FloatFmt) (EE : ExprEnv) c cs ctx,
  Forall (fun ce => gives ce.1 ctx (JBool false)) (c :: cs) ->
  gives (opl "@switch" (map (fun ce => listE [ce.1; ce.2]) (c :: cs))) ctx JNull.
Proof.
  intros FF EE c cs ctx F. unfold gives.
  assert (E : eval (opl "@switch" (map (fun ce => listE [ce.1; ce.2]) (c :: cs))) ctx = op_switch (map (fun ce => Some [eval ce.1; eval ce.2]) (c :: cs)) ctx).
  { change (eval (opl "@switch" (map (fun ce => listE [ce.1; ce.2]) (c :: cs))) ctx) with (op_switch (map (exp_list eval) (map (fun ce => listE [ce.1; ce.2]) (c :: cs))) ctx). by rewrite map_map. }
  rewrite E. unfold op_switch. cbn [map]. clear E. change (switch_loop (map (fun ce => Some [eval ce.1; eval ce.2]) (c :: cs)) ctx = Val JNull).
  induction F as [|[c0 e0] cs1 F1 F2 IH]; [done|]. apply test_true in F1. cbn in F1. cbn [map switch_loop fst snd]. by rewrite F1.
Qed.
Print Assumptions C43_switch_none.
Example C43_switch_none_example : gives (opl "@switch" [listE [boolE false; intE 1]; listE [boolE false; intE 2]]) here JNull.
Proof. vm_compute. reflexivity. Qed.

(** @noop gives null, and so does a branch that is not taken with it. *)
Theorem C43_noop : forall (FF : FloatFmt) (EE : ExprEnv) a ctx, gives (Expr "@noop" a (LVal JNull)) ctx JNull.
Proof. intros. unfold gives. by destruct a. Qed.
Print Assumptions C43_noop.
Example C43_noop_example : gives (opl "@cond" [boolE true; strE "$.nothing"; Expr "@noop" None (LVal JNull)]) here JNull /\ gives (opl "@cond" [boolE false; intE 1; Expr "@noop" None (LVal JNull)]) here JNull.
Proof. split; vm_compute; reflexivity. Qed.

(** An expression that is named by a plain key gives an object with that key. *)
Theorem C43_plain_key : forall (FF : FloatFmt) (EE : ExprEnv) c key e ctx v, c <> "@"%char -> gives e ctx v -> gives (op1 (String c key) e) ctx (JMap [(String c key, v)]).
Proof.
  intros FF EE c key e ctx v N H. assert (E : opcode_of (String c key) = OPlain).
  { unfold opcode_of. assert (A : forall A (l : list (string * A)), Forall (fun kv => exists s, kv.1 = String "@" s) l -> assoc (String c key) l = None).
    { intros A l. unfold assoc. induction 1 as [|[k x] l [s Ek] _ IH]; [done|]. cbn [List.find]. cbn in Ek. subst k. cbn [fst]. destruct (String.eqb_spec (String "@" s) (String c key)) as [Eq|_]; [|done]. exfalso. by injection Eq. }
    rewrite !A; [unfold at_sign; by rewrite bool_decide_false|..]; repeat (apply Forall_cons; split; [by eexists|]); apply Forall_nil; done. }
  unfold gives in *. unfold op1. cbn [eval]. unfold eval_node. rewrite E. cbn [p_arg]. by rewrite H.
Qed.
Print Assumptions C43_plain_key.
Example C43_plain_key_example : gives (op1 "name" (intE 1)) here (JMap [("name"%string, JInt 1)]).
Proof. vm_compute. reflexivity. Qed.

(** A missing selector, or missing labels: nothing is picked. *)
Theorem C52_missing : forall (FF : FloatFmt) (EE : ExprEnv) es el ctx s l, gives es ctx s -> gives el ctx l ->
  s = JNull \/ ((exists m, s = JMap m) /\ l = JNull) -> gives (opl "@selector" [es; el]) ctx (JBool false).
Proof.
  intros FF EE es el ctx s l Hs Hl N.
  assert (G : gives (listE [es; el]) ctx (JList (unpack [s; l]))) by (apply list_gives; by repeat constructor).
  rewrite unpack_id in G by (destruct N as [->|[[m ->] _]]; done).
  unfold gives in *. rewrite opl_op1. change (eval (op1 "@selector" (listE [es; el])) ctx) with (rbind (eval (listE [es; el]) ctx) op_selector).
  rewrite G. cbn [rbind]. unfold op_selector. cbn [as_list]. destruct N as [-> |[_ ->]]; cbn [is_null]; [done|by rewrite orb_true_r].
Qed.
Print Assumptions C52_missing.
Example C52_missing_example : gives (opl "@selector" [strE "$.nothing"; strE "$.nothing"]) here (JBool false).
Proof. vm_compute. reflexivity. Qed.

Lemma leb_cases a b : a <> S754_nan -> b <> S754_nan -> SFltb a b = false -> SFleb b a = true.
Proof.
  destruct a as [[]|[]| |[] m e], b as [[]|[]| |[] m' e']; try done; unfold SFltb, SFleb, SFcompare;
    change (Pos.compare_cont Eq m m') with (Pos.compare m m'); change (Pos.compare_cont Eq m' m) with (Pos.compare m' m);
    destruct (Z.compare_spec e e'), (Z.compare_spec e' e); subst; cbn; try done; try lia; destruct (Pos.compare_spec m m'), (Pos.compare_spec m' m); subst; cbn; try done; lia.
Qed.
Lemma ltb_leb a b : SFltb a b = true -> SFleb a b = true.
Proof. unfold SFltb, SFleb. by destruct (SFcompare a b) as [[]|]. Qed.
Lemma leb_refl a : a <> S754_nan -> SFleb a a = true.
Proof.
  destruct a as [[]|[]| |[] m e]; try done; unfold SFleb, SFcompare; rewrite Z.compare_refl; change (Pos.compare_cont Eq m m) with (Pos.compare m m); by rewrite Pos.compare_refl.
Qed.
Lemma leb_trans a b c : SFleb a b = true -> SFleb b c = true -> SFleb a c = true.
Proof.
  destruct a as [[]|[]| |[] m e], b as [[]|[]| |[] m' e'], c as [[]|[]| |[] m'' e'']; try done; unfold SFleb, SFcompare;
    change (Pos.compare_cont Eq m m') with (Pos.compare m m'); change (Pos.compare_cont Eq m' m'') with (Pos.compare m' m''); change (Pos.compare_cont Eq m m'') with (Pos.compare m m'');
    destruct (Z.compare_spec e e'), (Z.compare_spec e' e''), (Z.compare_spec e e''); subst; cbn; try done; try lia;
    destruct (Pos.compare_spec m m'), (Pos.compare_spec m' m''), (Pos.compare_spec m m''); subst; cbn; try done; try lia.
Qed.
Lemma best_loop ff fs (up : bool) :
  (forall a b, a = S754_nan \/ b = S754_nan -> ff a b = S754_nan) ->
  (forall a b, a <> S754_nan -> b <> S754_nan -> (ff a b = a \/ ff a b = b) /\
     (if up then SFleb a (ff a b) = true /\ SFleb b (ff a b) = true else SFleb (ff a b) a = true /\ SFleb (ff a b) b = true)) ->
  forall f, (S754_nan ∈ f :: fs -> foldl ff f fs = S754_nan) /\
  (S754_nan ∉ f :: fs -> foldl ff f fs ∈ f :: fs /\ Forall (fun g => (if up then SFleb g (foldl ff f fs) else SFleb (foldl ff f fs) g) = true) (f :: fs)).
Proof.
  intros HN HV. induction fs as [|g fs IH]; intros f.
  - split; [intros H; apply elem_of_list_singleton in H; by subst|]. intros H. rewrite not_elem_of_cons in H. destruct H as [H _].
    split; [left|]. constructor; [|done]. cbn [foldl]. destruct up; apply leb_refl; congruence.
  - cbn [foldl]. destruct (IH (ff f g)) as [I1 I2]. split.
    + intros H. apply I1. rewrite !elem_of_cons in H. destruct H as [H|[H|H]]; [rewrite HN by auto; left..|by right].
    + intros H. rewrite !not_elem_of_cons in H. destruct H as (H1 & H2 & H3).
      destruct (HV f g) as [E B]; [congruence..|]. destruct I2 as [I2 I3].
      { rewrite not_elem_of_cons. split; [|done]. destruct E as [-> | ->]; congruence. }
      split. { rewrite elem_of_cons in I2. rewrite !elem_of_cons. destruct I2 as [->|I2]; [|tauto]. destruct E as [-> | ->]; tauto. }
      apply Forall_cons in I3 as [I3 I4]. rewrite !Forall_cons. destruct up; destruct B as [B1 B2]; split_and!; try done; by eapply leb_trans.
Qed.
Lemma fmin_spec a b : a <> S754_nan -> b <> S754_nan -> (fmin a b = a \/ fmin a b = b) /\ SFleb (fmin a b) a = true /\ SFleb (fmin a b) b = true.
Proof.
  intros Ha Hb. unfold fmin. assert (is_nan a || is_nan b = false) as -> by (by destruct a, b).
  destruct (SFltb a b) eqn:E1; [split_and!; [by left|by apply leb_refl|by apply ltb_leb]|].
  destruct (SFltb b a) eqn:E2; [split_and!; [by right|by apply ltb_leb|by apply leb_refl]|].
  apply leb_cases in E1; [|done..]. apply leb_cases in E2; [|done..].
  destruct a as [sa|sa| |sa ma ea], b as [sb|sb| |sb mb eb]; try done; try (split_and!; [by left|by apply leb_refl|done]).
  destruct sa, sb; cbn; auto.
Qed.
Lemma fmax_spec a b : a <> S754_nan -> b <> S754_nan -> (fmax a b = a \/ fmax a b = b) /\ SFleb a (fmax a b) = true /\ SFleb b (fmax a b) = true.
Proof.
  intros Ha Hb. unfold fmax. assert (is_nan a || is_nan b = false) as -> by (by destruct a, b).
  destruct (SFltb a b) eqn:E1; [split_and!; [by right|by apply ltb_leb|by apply leb_refl]|].
  destruct (SFltb b a) eqn:E2; [split_and!; [by left|by apply leb_refl|by apply ltb_leb]|].
  apply leb_cases in E1; [|done..]. apply leb_cases in E2; [|done..].
  destruct a as [sa|sa| |sa ma ea], b as [sb|sb| |sb mb eb]; try done; try (split_and!; [by left|by apply leb_refl|done]).
  destruct sa, sb; cbn; auto.
Qed.
(** The least and the greatest of some numbers, not all of them integers, are among them (as
    doubles) and bound all of them; a NaN among them is the result of both. *)
Theorem C43_float_minmax : forall (FF : FloatFmt) (EE : ExprEnv) e ctx vs f fs, gives e ctx (JList vs) ->
  Forall2 (fun v f => v = JFloat f \/ exists n, v = JInt n /\ f = f64_of_int n) vs (f :: fs) -> (exists f, JFloat f ∈ vs) ->
  exists lo hi, gives (op1 "@min" e) ctx (JFloat lo) /\ gives (op1 "@max" e) ctx (JFloat hi) /\
    (S754_nan ∈ f :: fs -> lo = S754_nan /\ hi = S754_nan) /\
    (S754_nan ∉ f :: fs -> lo ∈ f :: fs /\ hi ∈ f :: fs /\ forall g, g ∈ f :: fs -> SFleb lo g = true /\ SFleb g hi = true).
Proof.
  intros FF EE e ctx vs f fs H F X. pose proof (floats_nums vs (f :: fs) F X) as N. unfold gives in *.
  exists (foldl fmin f fs), (foldl fmax f fs).
  destruct (best_loop fmin fs false) with (f := f) as [A1 A2]; [by intros [] [] [?|?]|apply fmin_spec|].
  destruct (best_loop fmax fs true) with (f := f) as [B1 B2]; [by intros [] [] [?|?]|apply fmax_spec|].
  split_and!.
  - change (eval (op1 "@min" e) ctx) with (rbind (eval e ctx) (best_op Z.min fmin)). rewrite H. cbn [rbind]. unfold best_op. by rewrite N.
  - change (eval (op1 "@max" e) ctx) with (rbind (eval e ctx) (best_op Z.max fmax)). rewrite H. cbn [rbind]. unfold best_op. by rewrite N.
  - auto.
  - intros Hn. destruct (A2 Hn) as [A3 A4], (B2 Hn) as [B3 B4]. split_and!; [done..|]. intros g Hg.
    rewrite Forall_forall in A4, B4. auto.
Qed.
Print Assumptions C43_float_minmax.
Example C43_float_minmax_example : gives (opl "@min" [Expr "@float" None (LVal (JFloat half)); intE 2; intE 0]) here (JFloat (S754_zero false)) /\
  gives (opl "@max" [Expr "@float" None (LVal (JFloat half)); intE 0; Expr "@float" None (LVal (JFloat one))]) here (JFloat one).
Proof. split; vm_compute; reflexivity. Qed.
