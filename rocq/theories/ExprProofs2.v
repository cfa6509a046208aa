(** Proofs about evaluation: the order of iteration, panics. *)
From Verif Require Import JsonModel ObjModel JsonProofs ExprModel ExprSpec ExprProofs.
#[local] Open Scope Z_scope.

Section parts.
Context {FF : FloatFmt} {EE : ExprEnv}.
Definition parts_of (arg : option expr) (l : lit) : parts :=
  Parts (match arg with Some a => Some (eval a) | None => None end)
        (match arg with Some a => Some (exp_list eval a) | None => None end)
        (match arg with Some a => Some (exp_list (fun p => exp_list eval p) a) | None => None end)
        (match l with LVal v => v | _ => JNull end)
        (match l with LList es => Some (map eval es) | _ => None end)
        (match l with LMap m => Some (map (fun kv => (kv.1, eval kv.2)) m) | _ => None end).
Lemma eval_eq op arg l ctx : eval (Expr op arg l) ctx = eval_node op (parts_of arg l) ctx.
Proof. done. Qed.
(** An operator with an argument does not look at its literal. *)
Lemma eval_lit op a l l' ctx : eval (Expr op (Some a) l) ctx = eval (Expr op (Some a) l') ctx.
Proof. rewrite !eval_eq. unfold eval_node. destruct (opcode_of op); done. Qed.
End parts.

Lemma exp_list_other {A} (f : expr -> A) op a l : op <> "@list"%string -> exp_list f (Expr op a l) = Some [f (Expr op a l)].
Proof. intros N. cbn [exp_list]. by rewrite decide_False. Qed.

(** *** Similar expressions *)
Section similar.
Context {FF : FloatFmt} {EE : ExprEnv}.
Variable P : Prop.
Variables it1 it2 : list string -> list string.
Notation ev1 := (eval (EE := with_order EE it1)).
Notation ev2 := (eval (EE := with_order EE it2)).
Record similar (e e' : expr) : Prop := {
  si_eval : crel P (ev1 e) (ev2 e');
  si_args : orel (Forall2 (crel P)) (exp_list ev1 e) (exp_list ev2 e');
  si_pairs : orel (Forall2 (orel (Forall2 (crel P)))) (exp_list (exp_list ev1) e) (exp_list (exp_list ev2) e') }.
Definition lit_similar (l l' : lit) : Prop :=
  match l, l' with
  | LVal v, LVal w => v = w
  | LList es, LList es' => Forall2 similar es es'
  | LMap m, LMap m' => Forall2 (fun a b => a.1 = b.1 /\ similar a.2 b.2) m m'
  | _, _ => False
  end.
Lemma similar_args es es' : Forall2 similar es es' -> Forall2 (crel P) (map ev1 es) (map ev2 es').
Proof. induction 1; constructor; [apply H|done]. Qed.
Lemma similar_pairs es es' : Forall2 similar es es' -> Forall2 (orel (Forall2 (crel P))) (map (exp_list ev1) es) (map (exp_list ev2) es').
Proof. induction 1; constructor; [apply H|done]. Qed.
Lemma similar_map m m' : Forall2 (fun a b => a.1 = b.1 /\ similar a.2 b.2) m m' ->
  Forall2 (fun a b => a.1 = b.1 /\ crel P a.2 b.2) (map (fun kv : string * expr => (kv.1, ev1 kv.2)) m) (map (fun kv : string * expr => (kv.1, ev2 kv.2)) m').
Proof. induction 1 as [|a b m m' [E S] H IH]; constructor; [|done]. split; [done|apply S]. Qed.
Lemma similar_lists e e' : ex_op e = ex_op e' -> (ex_op e = "@list"%string -> lit_similar (ex_lit e) (ex_lit e')) -> crel P (ev1 e) (ev2 e') ->
  (ex_op e <> "@list"%string -> orel (Forall2 (crel P)) (exp_list ev1 e) (exp_list ev2 e')) -> similar e e'.
Proof.
  destruct e as [op a l], e' as [op' a' l']. cbn [ex_op ex_lit]. intros <- HL HC HE. split; [done|..].
  - destruct (decide (op = "@list"%string)) as [->|N]; [|by apply HE]. cbn [exp_list]. rewrite !decide_True by done. specialize (HL eq_refl).
    destruct l, l'; cbn in HL |- *; try done. by apply similar_args.
  - destruct (decide (op = "@list"%string)) as [->|N].
    + cbn [exp_list]. rewrite !decide_True by done. specialize (HL eq_refl). destruct l, l'; cbn in HL |- *; try done. by apply similar_pairs.
    + specialize (HE N). rewrite !(exp_list_other (A := option (list clo))) by done. constructor; [done|constructor].
Qed.
Lemma similar_node op arg arg' l l' : orel similar arg arg' -> lit_similar l l' ->
  (op = "@dict"%string -> forall ctx m n, l = LMap m -> l' = LMap n ->
     agree P (dict_loop (EE := with_order EE it1) (in_order (EE := with_order EE it1) (map (fun kv => (kv.1, ev1 kv.2)) m)) ctx [])
             (dict_loop (EE := with_order EE it2) (in_order (EE := with_order EE it2) (map (fun kv => (kv.1, ev2 kv.2)) n)) ctx [])) ->
  similar (Expr op arg l) (Expr op arg' l').
Proof.
  intros HA HL HD.
  assert (HC : crel P (ev1 (Expr op arg l)) (ev2 (Expr op arg' l'))).
  { intros ctx. rewrite (eval_eq (EE := with_order EE it1)), (eval_eq (EE := with_order EE it2)). apply node_agree.
    - split; cbn [parts_of p_arg p_args p_pairs p_val p_list p_map].
      + destruct arg, arg'; cbn in HA |- *; try done. apply HA.
      + destruct arg, arg'; cbn in HA |- *; try done. apply HA.
      + destruct arg, arg'; cbn in HA |- *; try done. apply HA.
      + destruct l, l'; cbn in HL; done.
      + destruct l, l'; cbn in HL |- *; try done. by apply similar_args.
      + destruct l, l'; cbn in HL |- *; try done. by apply similar_map.
    - intros -> m n Em En. cbn [parts_of p_map] in Em, En. destruct l as [| |m0], l' as [| |n0]; try done. injection Em as <-. injection En as <-. by apply HD. }
  apply similar_lists; try done. intros N. cbn [ex_op] in N. cbn [exp_list]. rewrite !decide_False by done. cbn. constructor; [done|constructor].
Qed.
End similar.

(** *** Maps with plain keys *)
Section dict.
Context {FF : FloatFmt} {EE : ExprEnv}.
Definition deref (ctx : ectx) (v : json) : res json := match v with JStr s => get_path ctx s | _ => Val v end.
Lemma set_path_plain ctx k v acc : plain_key k -> set_path ctx k v acc = match k with EmptyString => Err | _ => rbind (deref ctx v) (fun v => Val (mset acc k v)) end.
Proof.
  intros H. destruct k as [|c k]; [done|]. unfold set_path. cbn in H.
  assert (D : String c k <> "$."%string) by (intros E; by injection E).
  fold (deref ctx v). destruct (deref ctx v) as [w| |]; [|done..]. cbn [rbind]. rewrite (decide_False (P := String c k = "$."%string)) by done. rewrite (decide_False (P := c = dollar)) by done. done.
Qed.
Definition entry (ctx : ectx) (kf : string * clo) : res json := match kf.1 with EmptyString => Err | _ => rbind (kf.2 ctx) (deref ctx) end.
(** All entries, or a failure *)
Fixpoint entries (ctx : ectx) (m : list (string * clo)) : option (list (string * json)) :=
  match m with
  | [] => Some []
  | kf :: m => match entry ctx kf, entries ctx m with Val v, Some r => Some ((kf.1, v) :: r) | _, _ => None end
  end.
Definition msets (acc : jobj) (l : list (string * json)) : jobj := foldl (fun d kv => mset d kv.1 kv.2) acc l.
Lemma dict_entries ctx m : Forall (fun kf => plain_key kf.1) m -> forall acc,
  agree True (dict_loop m ctx acc) (match entries ctx m with Some l => Val (msets acc l) | None => Err end).
Proof.
  induction 1 as [|[k f] m H1 H2 IH]; intros acc; [done|]. cbn [dict_loop entries]. unfold entry. cbn [fst snd].
  destruct (f ctx) as [v| |]; cbn [rbind].
  - rewrite set_path_plain by done. destruct k as [|c k]; [done|]. destruct (deref ctx v) as [w| |]; cbn [rbind]; try done.
    specialize (IH (mset acc (String c k) w)). destruct (entries ctx m); done.
  - by destruct k.
  - by destruct k.
Qed.
Lemma entries_perm ctx m m' : Permutation m m' ->
  match entries ctx m, entries ctx m' with Some l, Some l' => Permutation l l' | None, None => True | _, _ => False end.
Proof.
  induction 1 as [|x m m' H IH|x y m|m1 m2 m3 H1 IH1 H2 IH2]; cbn [entries].
  - done.
  - destruct (entry ctx x); [|done..]. destruct (entries ctx m), (entries ctx m'); try done. by constructor.
  - destruct (entry ctx x), (entry ctx y); try done; destruct (entries ctx m); try done. constructor.
  - destruct (entries ctx m1), (entries ctx m2), (entries ctx m3); try done. by etrans.
Qed.
Lemma entries_keys ctx m l : entries ctx m = Some l -> map fst l = map fst m.
Proof.
  revert l. induction m as [|kf m IH]; intros l E; cbn in E; [by injection E as <-|]. destruct (entry ctx kf); try done. destruct (entries ctx m); [|done].
  injection E as <-. cbn. f_equal. by apply IH.
Qed.
Lemma msets_perm l l' : Permutation l l' -> NoDup (map fst l) -> forall acc, ksorted acc -> msets acc l = msets acc l'.
Proof.
  induction 1 as [|x m m' H IH|x y m|m1 m2 m3 H1 IH1 H2 IH2]; intros N acc W.
  - done.
  - cbn in N. apply NoDup_cons in N. destruct N as [_ N]. cbn. apply IH; [done|]. by apply ksorted_set.
  - cbn in N. apply NoDup_cons in N. destruct N as [N1 N]. unfold msets. cbn [foldl]. rewrite mset_comm; [done|done|]. intros E. apply N1. rewrite E. left.
  - rewrite (IH1 N acc W). apply IH2; [|done]. by rewrite <- H1.
Qed.
Lemma find_self {A} (m : list (string * A)) : NoDup (map fst m) -> forall m', (forall kv, kv ∈ m' -> List.find (fun x => String.eqb x.1 kv.1) m = Some kv) ->
  omap (fun k => List.find (fun kv => String.eqb kv.1 k) m) (map fst m') = m'.
Proof. intros N m'. induction m' as [|kv m' IH]; intros H; [done|]. cbn. rewrite (H kv) by left. f_equal. apply IH. intros x X. apply H. by right. Qed.
Lemma find_in {A} (m : list (string * A)) kv : NoDup (map fst m) -> kv ∈ m -> List.find (fun x => String.eqb x.1 kv.1) m = Some kv.
Proof.
  induction m as [|x m IH]; intros N I; [by apply elem_of_nil in I|]. cbn in N |- *. apply NoDup_cons in N. destruct N as [N1 N].
  destruct (String.eqb x.1 kv.1) eqn:E.
  - apply String.eqb_eq in E. apply elem_of_cons in I. destruct I as [->|I]; [done|]. exfalso. apply N1. rewrite E. apply elem_of_list_fmap. by exists kv.
  - apply elem_of_cons in I. destruct I as [->|I]; [by rewrite String.eqb_refl in E|]. by apply IH.
Qed.
Lemma in_order_perm {A} (m : list (string * A)) : is_order iterate -> NoDup (map fst m) -> Permutation (in_order m) m.
Proof.
  intros H N. unfold in_order. rewrite (H (map fst m)). rewrite (find_self m N m); [done|]. intros kv I. by apply find_in.
Qed.
Lemma dict_perm ctx m m' : Permutation m m' -> NoDup (map fst m) -> Forall (fun kf => plain_key kf.1) m -> agree True (dict_loop m ctx []) (dict_loop m' ctx []).
Proof.
  intros H N F. assert (F' : Forall (fun kf : string * clo => plain_key kf.1) m') by by rewrite <- H.
  pose proof (dict_entries ctx m F []) as D1. pose proof (dict_entries ctx m' F' []) as D2. pose proof (entries_perm ctx m m' H) as EP.
  destruct (entries ctx m) as [l|] eqn:E1, (entries ctx m') as [l'|] eqn:E2; try done.
  - rewrite (msets_perm l l' EP) in D1; [|by rewrite (entries_keys _ _ _ E1)|constructor].
    destruct (dict_loop m ctx []), (dict_loop m' ctx []); cbn in *; try done; congruence.
  - destruct (dict_loop m ctx []), (dict_loop m' ctx []); cbn in *; done.
Qed.
End dict.

Lemma agree_trans {A} (a b c : res A) : agree True a b -> agree True b c -> agree True a c.
Proof. destruct a, b, c; cbn; try done; congruence. Qed.

Section order.
Context {FF : FloatFmt} {EE : ExprEnv}.
Variables it1 it2 : list string -> list string.
Hypothesis O1 : is_order it1.
Hypothesis O2 : is_order it2.
Lemma plain_similar e : plain e -> similar True it1 it2 e e.
Proof.
  induction e as [op arg l IHa IHl IHm] using expr_all. intros H. inversion_clear H as [? ? ? HA HL]. 
  assert (SL : lit_similar True it1 it2 l l).
  { destruct l as [v|es|m]; cbn; [done|..].
    - inversion_clear HL as [|? F|]. specialize (IHl es eq_refl). clear -IHl F. induction es as [|e es IH]; [constructor|]. inversion_clear IHl. inversion_clear F. constructor; auto.
    - inversion_clear HL as [| |? N F]. specialize (IHm m eq_refl). clear -IHm F. induction m as [|[k e] m IH]; [constructor|]. inversion_clear IHm. inversion_clear F as [|? ? [_ F1] F2]. constructor; [split; [done|]|]; auto. }
  apply similar_node; [|done|].
  - destruct arg as [a|]; [|done]. cbn. by apply IHa, HA.
  - intros -> ctx m n -> En. injection En as <-. inversion_clear HL as [| |? N F].
    set (m1 := map (fun kv : string * expr => (kv.1, eval (EE := with_order EE it1) kv.2)) m). set (m2 := map (fun kv : string * expr => (kv.1, eval (EE := with_order EE it2) kv.2)) m).
    assert (N1 : NoDup (map fst m1)) by by (unfold m1; rewrite map_map).
    assert (N2 : NoDup (map fst m2)) by by (unfold m2; rewrite map_map).
    assert (F1 : Forall (fun kf : string * clo => plain_key kf.1) m1). { unfold m1. clear -F. induction F as [|[k e] m [H _] F IH]; constructor; done. }
    assert (F2 : Forall (fun kf : string * clo => plain_key kf.1) m2). { unfold m2. clear -F. induction F as [|[k e] m [H _] F IH]; constructor; done. }
    eapply agree_trans; [apply (dict_perm (EE := with_order EE it1) ctx (in_order (EE := with_order EE it1) m1) m1)|].
    + by apply (in_order_perm (EE := with_order EE it1)).
    + by rewrite (in_order_perm (EE := with_order EE it1) m1).
    + by rewrite (in_order_perm (EE := with_order EE it1) m1).
    + eapply agree_trans; [apply (dict_agree True m1 m2); by apply (similar_map True it1 it2)|].
      apply (dict_perm (EE := with_order EE it2) ctx m2 (in_order (EE := with_order EE it2) m2)); [|done..]. symmetry. by apply (in_order_perm (EE := with_order EE it2)).
Qed.
End order.
