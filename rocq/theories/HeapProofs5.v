(** Evaluation writes only what can be reached from its document. *)
From Verif Require Import JsonModel JsonProofs ExprModel ExprSpec ExprProofs HeapModel HeapSpec HeapProofs HeapProofs3.
#[local] Open Scope nat_scope.

Section iso.
Context {FF : FloatFmt} {EE : ExprEnv} {HE : HeapEnv}.
Hypothesis IP : inner_paths.
Variable D : nat -> Prop.
Variable base : nat.
Definition dom (n : nat) : Prop := D n \/ base <= n.
Definition inD (v : hval) : Prop := match v with HRef n => dom n | _ => True end.
Definition inDs (l : list hval) : Prop := Forall inD l.
Definition inDm (m : list (string * hval)) : Prop := Forall (fun kv => inD kv.2) m.
Definition cell_in (c : cell) : Prop := match c with CList l => inDs l | CMap m => inDm m end.
Definition inv (h : heap) : Prop := base <= length h /\ forall n c, dom n -> h !! n = Some c -> cell_in c.
Definition keeps {A} (Q : A -> Prop) (o : run A) : Prop := forall h, inv h ->
  inv (o h).1 /\ (forall n, ~ dom n -> (o h).1 !! n = h !! n) /\ match (o h).2 with Val a => Q a | _ => True end.
Lemma keeps_bind {A B} (Q : A -> Prop) (R : B -> Prop) (o : run A) f : keeps Q o -> (forall a, Q a -> keeps R (f a)) -> keeps R (hbind o f).
Proof.
  intros H K h I. unfold hbind. destruct (H h I) as (I1 & F1 & Q1). destruct (o h) as [h1 x]. cbn in *. destruct x as [a| |]; [|done..].
  destruct (K a Q1 h1 I1) as (I2 & F2 & Q2). split_and!; [done| |done]. intros n Hn. by rewrite F2, F1.
Qed.
Lemma keeps_val {A} (Q : A -> Prop) a : Q a -> keeps Q (hval_of a).
Proof. by intros H h I. Qed.
Lemma keeps_fail {A} (Q : A -> Prop) : keeps Q hfail.
Proof. by intros h I. Qed.
Lemma keeps_panic {A} (Q : A -> Prop) : keeps Q hpanic.
Proof. by intros h I. Qed.
Lemma keeps_hor {A} (Q : A -> Prop) (o : option A) : (forall a, o = Some a -> Q a) -> keeps Q (hor o).
Proof. intros H h I. split_and!; [done..|]. destruct o; cbn; [by apply H|done]. Qed.
Lemma keeps_impl {A} (Q R : A -> Prop) o : (forall a, Q a -> R a) -> keeps Q o -> keeps R o.
Proof. intros H K h I. destruct (K h I) as (I1 & F1 & Q1). split_and!; [done..|]. destruct (o h).2; [by apply H|done..]. Qed.
Lemma inv_app h new : inv h -> Forall cell_in new -> inv (h ++ new) /\ forall n, ~ dom n -> (h ++ new) !! n = h !! n.
Proof.
  intros [L C] F. split.
  - split; [rewrite app_length; lia|]. intros n c Hn. destruct (decide (n < length h)) as [Hl|Hl]; [rewrite lookup_app_l by done; by apply C|].
    rewrite lookup_app_r by lia. intros E. rewrite Forall_forall in F. apply F. by eapply elem_of_list_lookup_2.
  - intros n Hn. rewrite lookup_app_l; [done|]. unfold dom in Hn. lia.
Qed.
Lemma inv_insert h r c : inv h -> dom r -> cell_in c -> inv (<[r := c]> h) /\ forall n, ~ dom n -> <[r := c]> h !! n = h !! n.
Proof.
  intros [L C] Hr Hc. split.
  - split; [by rewrite insert_length|]. intros n c' Hn. destruct (decide (r = n)) as [<-|]; [|rewrite list_lookup_insert_ne by done; by apply C].
    intros E. destruct (decide (r < length h)); [rewrite list_lookup_insert in E by done; by injection E as <-|]. rewrite list_insert_ge in E by lia. by eapply C.
  - intros n Hn. apply list_lookup_insert_ne. by intros ->.
Qed.
Lemma dom_new h n : inv h -> length h <= n -> dom n.
Proof. intros [L _] H. right. lia. Qed.
Lemma keeps_new c : cell_in c -> keeps inD (hnew c).
Proof.
  intros H h I. unfold hnew. cbn [fst snd]. destruct (inv_app h [c] I) as [I1 F1]; [by constructor; [|constructor]|]. split_and!; [done..|]. exact (dom_new h _ I (le_n _)).
Qed.
Lemma alloc_in j : forall h, inv h -> inv (alloc j h).1 /\ (forall n, ~ dom n -> (alloc j h).1 !! n = h !! n) /\ inD (alloc j h).2.
Proof.
  induction j as [| | | | |l IH|m IH] using json_rect'; intros h I; try done.
  - set (go := fix go (l : list json) (h : heap) : heap * list hval :=
        match l with [] => (h, []) | j :: l => let '(h, v) := alloc j h in let '(h, vs) := go l h in (h, v :: vs) end).
    assert (A : inv (go l h).1 /\ (forall n, ~ dom n -> (go l h).1 !! n = h !! n) /\ inDs (go l h).2).
    { revert h I. induction IH as [|j l Hj _ IHl]; intros h I; [split_and!; [done..|constructor]|]. cbn. specialize (Hj h I). destruct (alloc j h) as [h1 v]. cbn in Hj. destruct Hj as (I1 & F1 & V1).
      specialize (IHl h1 I1). fold go. destruct (go l h1) as [h2 vs]. cbn in IHl |- *. destruct IHl as (I2 & F2 & V2). split_and!; [done| |by constructor]. intros n Hn. by rewrite F2, F1. }
    change (alloc (JList l) h) with (let '(h, vs) := go l h in (h ++ [CList vs], HRef (length h))). destruct (go l h) as [h1 vs]. cbn [fst snd] in A |- *. destruct A as (I1 & F1 & V1).
    destruct (inv_app h1 [CList vs] I1) as [I2 F2]; [by constructor; [|constructor]|]. split_and!; [done| |exact (dom_new h1 _ I1 (le_n _))]. intros n Hn. by rewrite F2, F1.
  - set (go := fix go (m : jobj) (h : heap) : heap * list (string * hval) :=
        match m with [] => (h, []) | (k, j) :: m => let '(h, v) := alloc j h in let '(h, vs) := go m h in (h, (k, v) :: vs) end).
    assert (A : inv (go m h).1 /\ (forall n, ~ dom n -> (go m h).1 !! n = h !! n) /\ inDm (go m h).2).
    { revert h I. induction IH as [|[k j] l Hj _ IHl]; intros h I; [split_and!; [done..|constructor]|]. cbn in Hj |- *. specialize (Hj h I). destruct (alloc j h) as [h1 v]. cbn in Hj. destruct Hj as (I1 & F1 & V1).
      specialize (IHl h1 I1). fold go. destruct (go l h1) as [h2 vs]. cbn in IHl |- *. destruct IHl as (I2 & F2 & V2). split_and!; [done| |by constructor]. intros n Hn. by rewrite F2, F1. }
    change (alloc (JMap m) h) with (let '(h, vs) := go m h in (h ++ [CMap vs], HRef (length h))). destruct (go m h) as [h1 vs]. cbn [fst snd] in A |- *. destruct A as (I1 & F1 & V1).
    destruct (inv_app h1 [CMap vs] I1) as [I2 F2]; [by constructor; [|constructor]|]. split_and!; [done| |exact (dom_new h1 _ I1 (le_n _))]. intros n Hn. by rewrite F2, F1.
Qed.
Lemma keeps_value f v : keeps inD (h_value f v).
Proof.
  intros h I. unfold h_value. destruct (json_of h v) as [j|]; [|done]. destruct (f j) as [j'| |]; [|done..]. pose proof (alloc_in j' h I) as A. by destruct (alloc j' h).
Qed.
Lemma keeps_copy v : keeps inD (deep_copy v).
Proof. intros h I. unfold deep_copy. destruct (json_of h v) as [j|]; [|done]. pose proof (alloc_in j h I) as A. by destruct (alloc j h). Qed.
Lemma keeps_list v : inD v -> keeps inDs (h_list v).
Proof. intros H h I. unfold h_list. destruct v as [| | | | |n]; try done. destruct (h !! n) as [[l|m]|] eqn:E; try done. split_and!; [done..|]. apply (proj2 I n _ H E). Qed.
Lemma keeps_map v : inD v -> keeps inDm (h_map v).
Proof. intros H h I. unfold h_map. destruct v as [| | | | |n]; try done. destruct (h !! n) as [[l|m]|] eqn:E; try done. split_and!; [done..|]. apply (proj2 I n _ H E). Qed.
Lemma within_in h v w : inv h -> inD v -> within h v w -> inD w.
Proof.
  intros I H W. induction W as [|n l w W IH E X|n m k w W IH E X]; [done| |].
  - pose proof (proj2 I n _ IH E) as C. cbn in C. unfold inDs in C. rewrite Forall_forall in C. by apply C.
  - pose proof (proj2 I n _ IH E) as C. cbn in C. unfold inDm in C. rewrite Forall_forall in C. by apply (C (k, w)).
Qed.
Lemma keeps_unpack v : inD v -> keeps inD (h_unpack v).
Proof.
  intros H. unfold h_unpack. eapply keeps_bind; [by apply keeps_list|]. intros l Hl h I. destruct l as [|[| | | | |i] l]; try done. inversion Hl; subst. destruct (h !! i) as [[]|]; done.
Qed.

Definition ctx_in (hc : hctx) : Prop := inD (hc_object hc) /\ inD (hc_subject hc).
Lemma keeps_raw q v : inD v -> keeps inD (h_get_raw q v).
Proof.
  intros H h I. unfold h_get_raw. cbn [fst snd]. split_and!; [done..|]. destruct (hp_get q h v) as [[|w vs]|] eqn:E; [done| |done]. eapply within_in; [done|exact H|]. eapply IP; [done|by left].
Qed.
Lemma keeps_path hc key : ctx_in hc -> keeps inD (h_get_path hc key).
Proof.
  intros [O S]. unfold h_get_path. destruct key as [|c k]; [by apply keeps_val|]. case_decide; [|by apply keeps_val].
  destruct (if decide (String c k = "$.") then _ else _) as [|c1 [|c2 k']]; [by apply keeps_raw..|]. destruct (_ && _); by apply keeps_raw.
Qed.
Lemma inDm_set m k v : inDm m -> inD v -> inDm (kset m k v).
Proof.
  intros H V. induction H as [|[k' w] m Hw Hm IH]; cbn; [by constructor; [|constructor]|]. destruct (scmp k k'); repeat (constructor; try done).
Qed.
Lemma inDm_del m k : inDm m -> inDm (kdel m k).
Proof. intros H. induction H as [|[k' w] m Hw Hm IH]; cbn; [constructor|]. case_decide; [done|by constructor]. Qed.
Lemma inDm_get m k v : inDm m -> kget m k = Some v -> inD v.
Proof. intros H. induction H as [|[k' w] m Hw Hm IH]; cbn; [done|]. case_decide; [by intros [= <-]|done]. Qed.
Notation top := (fun _ => True).
Lemma keeps_set p : forall v r, inD v -> dom r -> keeps top (h_set p v r).
Proof.
  induction p as [|k p IH]; intros v r V R h I; cbn [h_set].
  - by destruct (h !! r) as [[]|].
  - destruct (h !! r) as [[l|m]|] eqn:E; try done. pose proof (proj2 I r _ R E) as M. cbn in M. destruct p as [|k2 p].
    + cbn [fst snd]. destruct (inv_insert h r (CMap (kset m k v)) I R) as [I1 F1]; [by apply inDm_set|done].
    + destruct (kget m k) as [w|] eqn:G.
      * destruct w as [| | | | |n]; try done. apply IH; [done| |done]. by apply (inDm_get m k (HRef n)).
      * destruct (inv_insert h r (CMap (kset m k (HRef (length h)))) I R) as [I1 F1]; [apply inDm_set; [done|]; by apply (dom_new h)|].
        destruct (inv_app _ [CMap []] I1) as [I2 F2]; [constructor; [constructor|constructor]|].
        destruct (IH v (length h) V (dom_new h _ I (le_n _)) _ I2) as (I3 & F3 & _). split_and!; [done| |by destruct (h_set _ _ _ _).2]. intros n Hn. by rewrite F3, F2, F1.
Qed.
Lemma keeps_set_path hc key v r : ctx_in hc -> inD v -> dom r -> keeps top (h_set_path hc key v r).
Proof.
  intros C V R. unfold h_set_path. destruct key as [|c key]; [apply keeps_fail|]. eapply (keeps_bind inD).
  { destruct v; [by apply keeps_val..|by apply keeps_path|by apply keeps_val]. }
  intros w W. case_decide; [|case_decide; [destruct (steps _); [by apply keeps_set|apply keeps_fail]|by apply keeps_set]].
  eapply keeps_bind; [by apply keeps_map|]. intros m M h I. destruct (h !! r) as [[l|d]|] eqn:E; try done. cbn [fst snd]. pose proof (proj2 I r _ R E) as Hd. cbn in Hd.
  destruct (inv_insert h r (CMap (foldl (fun d kv => kset d kv.1 kv.2) (foldl (fun d kv => kdel d kv.1) d m) m)) I R) as [I1 F1]; [|done].
  cbn. assert (X : inDm (foldl (fun d (kv : string * hval) => kdel d kv.1) d m)). { clear M E. revert d Hd. induction m as [|[k x] m IH]; intros d Hd; cbn; [done|]. apply IH. by apply inDm_del. }
  revert X. generalize (foldl (fun d (kv : string * hval) => kdel d kv.1) d m). clear E Hd. induction M as [|[k x] m Hx Hm IH]; intros d' Hd; cbn; [done|]. apply IH. by apply inDm_set.
Qed.

Definition ck (f : hclo) : Prop := forall hc, ctx_in hc -> keeps inD (f hc).
Lemma keeps_test f hc : ck f -> ctx_in hc -> keeps top (h_test f hc).
Proof. intros H C. eapply keeps_bind; [by apply H|]. intros a _. by apply keeps_hor. Qed.
Lemma subject_in hc v : ctx_in hc -> inD v -> ctx_in (h_subject hc v).
Proof. by intros [O S] V. Qed.
Ltac tst := eapply (keeps_bind top); [by apply keeps_test|].
Lemma keeps_junction stop fs hc : Forall ck fs -> ctx_in hc -> keeps inD (h_junction stop fs hc).
Proof. intros H C. induction H as [|f fs H1 H2 IH]; cbn; [by apply keeps_val|]. tst. intros b _. destruct (Bool.eqb b stop); [by apply keeps_val|done]. Qed.
Lemma keeps_switch ps hc : Forall (fun o => match o with Some fs => Forall ck fs | None => True end) ps -> ctx_in hc -> keeps inD (h_switch_loop ps hc).
Proof.
  intros H C. induction H as [|o ps H1 H2 IH]; cbn; [by apply keeps_val|]. destruct o as [fs|]; [|apply keeps_fail]. destruct H1 as [|f fs F1 H1]; [apply keeps_fail|]. destruct H1 as [|g fs F2 H1]; [apply keeps_fail|].
  destruct H1; [|apply keeps_fail]. tst. intros b _. destruct b; [by apply F2|done].
Qed.
Lemma keeps_filter f hc l : ck f -> ctx_in hc -> inDs l -> keeps inDs (h_filter_loop f hc l).
Proof.
  intros H C L. induction L as [|v l V L IH]; cbn; [by apply keeps_val; constructor|]. eapply (keeps_bind top); [apply keeps_test; [done|by apply subject_in]|]. intros b _.
  eapply keeps_bind; [exact IH|]. intros r R. apply keeps_val. destruct b; [by constructor|done].
Qed.
Lemma keeps_map_loop f hc l : ck f -> ctx_in hc -> inDs l -> keeps inDs (h_map_loop f hc l).
Proof.
  intros H C L. induction L as [|v l V L IH]; cbn; [by apply keeps_val; constructor|]. eapply keeps_bind; [apply H; by apply subject_in|]. intros w W.
  eapply keeps_bind; [exact IH|]. intros r R. apply keeps_val. by constructor.
Qed.
Lemma keeps_quant a b c f hc l : ck f -> ctx_in hc -> inDs l -> keeps inD (h_quant_loop a b c f hc l).
Proof.
  intros H C L. induction L as [|v l V L IH]; cbn; [by apply keeps_val|]. eapply (keeps_bind top); [apply keeps_test; [done|by apply subject_in]|]. intros x _. destruct (Bool.eqb x b); [by apply keeps_val|done].
Qed.
Lemma keeps_on_list {A} (Q : A -> Prop) g hc k : ck g -> ctx_in hc -> (forall l, inDs l -> keeps Q (k l)) -> keeps Q (h_on_list hc g k).
Proof. intros H C K. unfold h_on_list. eapply keeps_bind; [by apply H|]. intros v V. eapply keeps_bind; [by apply keeps_list|]. exact K. Qed.
Lemma keeps_list_loop fs hc : Forall ck fs -> ctx_in hc -> keeps inDs (h_list_loop fs hc).
Proof. intros H C. induction H as [|f fs H1 H2 IH]; cbn; [by apply keeps_val; constructor|]. eapply keeps_bind; [by apply H1|]. intros v V. eapply keeps_bind; [exact IH|]. intros r R. apply keeps_val. by constructor. Qed.
Lemma keeps_dict m hc r : Forall (fun kv => ck kv.2) m -> ctx_in hc -> dom r -> keeps top (h_dict_loop m hc r).
Proof.
  intros H C R. induction H as [|[k f] m H1 H2 IH]; cbn; [by apply keeps_val|]. eapply keeps_bind; [by apply H1|]. intros v V. eapply keeps_bind; [by apply keeps_set_path|]. intros _ _. exact IH.
Qed.
Definition opt_ck (o : option hclo) : Prop := match o with Some f => ck f | None => True end.
Record parts_ck (p : hparts) : Prop := {
  k_arg : opt_ck (hp_arg p);
  k_args : forall fs, hp_args p = Some (Some fs) -> Forall ck fs;
  k_pairs : forall ps, hp_pairs p = Some (Some ps) -> Forall (fun o => match o with Some fs => Forall ck fs | None => True end) ps;
  k_list : forall fs, hp_list p = Some fs -> Forall ck fs;
  k_map : forall m, hp_map p = Some m -> Forall (fun kv => ck kv.2) m }.
Lemma keeps_args {A B} (Q : A -> Prop) (a : option (option B)) (P : B -> Prop) k : (forall x, a = Some (Some x) -> P x) -> (forall x, P x -> keeps Q (k x)) -> keeps Q (h_with_args a k).
Proof. intros H K. destruct a as [[x|]|]; cbn; [apply K; by apply H|apply keeps_fail|apply keeps_panic]. Qed.
Lemma node_keeps op p : parts_ck p -> ck (heval_node op p).
Proof.
  intros [K1 K2 K3 K4 K5] hc C. unfold heval_node.
  assert (AO : keeps inD (match hp_arg p with Some f => f hc | None => hval_of (h_literal (hp_val p)) end)).
  { destruct (hp_arg p); [by apply K1|]. apply keeps_val. by destruct (hp_val p). }
  assert (AQ : forall a b c, keeps inD (h_with_args (hp_args p) (fun fs => match fs with [f; g] => h_on_list hc g (h_quant_loop a b c f hc) | _ => hfail end))).
  { intros a b c. eapply keeps_args; [exact K2|]. intros fs H. destruct H as [|f fs F1 H]; [apply keeps_fail|]. destruct H as [|g fs F2 H]; [apply keeps_fail|]. destruct H; [|apply keeps_fail].
    apply keeps_on_list; [done|done|]. intros l L. by apply keeps_quant. }
  destruct (opcode_of op).
  - eapply keeps_bind; [exact AO|]. intros v V. apply keeps_hor. intros a. by destruct (as_bool _); [intros [= <-]|].
  - eapply keeps_bind; [exact AO|]. intros v V. apply keeps_hor. intros a. by destruct (as_int _); [intros [= <-]|].
  - eapply keeps_bind; [exact AO|]. intros v V. apply keeps_hor. intros a. by destruct (as_float _); [intros [= <-]|].
  - eapply keeps_bind; [exact AO|]. intros v V. eapply (keeps_bind top); [by apply keeps_hor|]. intros s _. eapply keeps_bind; [by apply keeps_path|]. intros w W. apply keeps_val. by destruct (is_str _ _).
  - destruct (hp_arg p) as [f|]; [eapply keeps_bind; [by apply K1|]; intros v V; by apply keeps_unpack|]. destruct (hp_list p) as [fs|]; [|apply keeps_fail].
    eapply keeps_bind; [apply keeps_list_loop; [by apply K4|done]|]. intros l L. eapply keeps_bind; [by apply keeps_new|]. intros v V. by apply keeps_unpack.
  - destruct (hp_arg p) as [f|]; [eapply keeps_bind; [by apply K1|]; intros v V; eapply keeps_bind; [by apply keeps_map|]; intros m M; by apply keeps_val|]. destruct (hp_map p) as [m|]; [|apply keeps_fail].
    intros h I. destruct (inv_app h [CMap []] I) as [I1 F1]; [constructor; [constructor|constructor]|]. pose proof (dom_new h (length h) I (le_n _)) as R.
    assert (Km : Forall (fun kv => ck kv.2) (in_order m)).
    { unfold in_order. specialize (K5 m eq_refl). rewrite Forall_forall in K5. apply Forall_forall. intros kv Hkv. apply elem_of_list_omap in Hkv as (k & _ & Hf). apply K5. apply find_some in Hf as [Hf _]. by apply elem_of_list_In. }
    assert (X : keeps inD (hbind (h_dict_loop (in_order m) hc (length h)) (fun _ => hval_of (HRef (length h))))).
    { eapply keeps_bind; [by apply keeps_dict|]. intros _ _. by apply keeps_val. }
    destruct (X _ I1) as (I2 & F2 & Q2). cbn zeta. split_and!; [done| |done]. intros n Hn. by rewrite F2, F1.
  - by apply keeps_val.
  - eapply keeps_args; [exact K2|]. intros fs H. destruct H as [|f fs F1 H]; [apply keeps_fail|]. destruct H as [|g fs F2 H]; [apply keeps_fail|]. destruct H as [|g2 fs F3 H]; cbn.
    + tst. intros b _. destruct b; [by apply F2|by apply keeps_val].
    + destruct H; [|apply keeps_fail]. tst. intros b _. destruct b; [by apply F2|by apply F3].
  - eapply keeps_args; [exact K2|]. intros fs H. destruct H as [|f fs F1 H]; [apply keeps_fail|]. destruct H as [|g fs F2 H]; [apply keeps_fail|]. destruct H; [|apply keeps_fail]. cbn.
    eapply keeps_bind; [by apply F1|]. intros v V. destruct (h_null v); [by apply F2|by apply keeps_val].
  - eapply keeps_args; [exact K3|]. intros ps H. unfold h_switch. destruct ps; [apply keeps_fail|]. by apply keeps_switch.
  - eapply keeps_args; [exact K2|]. intros fs H. by apply keeps_junction.
  - eapply keeps_args; [exact K2|]. intros fs H. by apply keeps_junction.
  - eapply keeps_args; [exact K2|]. intros fs H. destruct H as [|f fs F1 H]; [apply keeps_fail|]. destruct H as [|g fs F2 H]; [apply keeps_fail|]. destruct H; [|apply keeps_fail].
    apply keeps_on_list; [done|done|]. intros l L. eapply keeps_bind; [by apply keeps_filter|]. intros r R. by apply keeps_new.
  - apply AQ. - apply AQ. - apply AQ.
  - eapply keeps_args; [exact K2|]. intros fs H. destruct H as [|f fs F1 H]; [apply keeps_panic|]. destruct H as [|g fs F2 H]; [apply keeps_panic|].
    apply keeps_on_list; [done|done|]. intros l L. eapply keeps_bind; [by apply keeps_map_loop|]. intros r R. by apply keeps_new.
  - destruct (hp_arg p) as [g|]; [|apply keeps_fail]. eapply keeps_bind; [by apply K1|]. intros v V. apply keeps_value.
  - destruct (hp_arg p) as [g|]; [|apply keeps_fail]. eapply keeps_bind; [by apply K1|]. intros v V. apply keeps_fail.
  - destruct (hp_arg p) as [g|]; [|apply keeps_fail]. eapply keeps_bind; [by apply K1|]. intros v V. apply keeps_new. by constructor; [|constructor].
  - apply keeps_fail.
Qed.
Fixpoint ck2 (n : nat) (e : expr) : Prop :=
  ck (heval e) /\ match n with O => True | S n => match e with Expr _ _ l => forall es, l = LList es -> Forall (ck2 n) es end end.
Lemma ck2_ck n e : ck2 n e -> ck (heval e).
Proof. destruct n; cbn; tauto. Qed.
Lemma forall_ck n es : Forall (ck2 n) es -> Forall ck (map heval es).
Proof. induction 1 as [|e es H _ IH]; cbn; constructor; [by eapply ck2_ck|done]. Qed.
Lemma exp_list_ck e fs : ck2 1 e -> exp_list heval e = Some fs -> Forall ck fs.
Proof.
  destruct e as [op arg l]. intros [G1 G2]. unfold exp_list. case_decide.
  - destruct l as [v|es|m]; try done. intros [= <-]. eapply (forall_ck 0). by apply G2.
  - intros [= <-]. by constructor; [|constructor].
Qed.
Lemma exp_list_ck2 e ps : ck2 2 e -> exp_list (fun p => exp_list heval p) e = Some ps -> Forall (fun o => match o with Some fs => Forall ck fs | None => True end) ps.
Proof.
  intros G. destruct e as [op arg l]. unfold exp_list at 1. case_decide.
  - destruct l as [v|es|m]; try done. intros [= <-]. destruct G as [_ G]. specialize (G es eq_refl). induction G as [|e es He _ IH]; cbn; constructor; [|done].
    destruct (exp_list heval e) eqn:E; [|done]. by eapply exp_list_ck.
  - intros E0. assert (ps = [exp_list heval (Expr op arg l)]) as -> by (apply (inj Some); symmetry; exact E0). constructor; [|constructor]. cbv beta. destruct (exp_list heval (Expr op arg l)) eqn:E; [|done]. eapply (exp_list_ck (Expr op arg l)); [|exact E].
    destruct G as [G1 G2]. split; [done|]. intros es ->. eapply Forall_impl; [by apply G2|]. intros e He. split; [by eapply ck2_ck|done].
Qed.
Lemma heval_ck e : forall n, ck2 n e.
Proof.
  induction e as [op arg l IA IL IM] using expr_all. intros n.
  assert (G : ck (heval (Expr op arg l))).
  { cbn [heval]. apply node_keeps. split; cbn [hp_arg hp_args hp_pairs hp_val hp_list hp_map].
    - destruct arg as [a|]; [|done]. apply (ck2_ck 0). by apply IA.
    - destruct arg as [a|]; [|done]. intros fs [= E]. eapply exp_list_ck; [|exact E]. by apply IA.
    - destruct arg as [a|]; [|done]. intros fs [= E]. eapply exp_list_ck2; [|exact E]. by apply IA.
    - destruct l as [v|es|m]; try done. intros fs [= <-]. apply (forall_ck 0). eapply Forall_impl; [by apply IL|]. intros e H. apply H.
    - destruct l as [v|es|m]; try done. intros fs [= <-]. specialize (IM m eq_refl). clear -IM. induction IM as [|[k e] m H _ IH]; cbn; constructor; [|done]. apply (ck2_ck 0). apply (H 0). }
  destruct n as [|n]; (split; [exact G|]); [done|]. intros es E. eapply Forall_impl; [by apply IL|]. intros e H. apply H.
Qed.
End iso.

(** What a value shows depends on its cells only. *)
Lemma within_trans h u v w : within h u v -> within h v w -> within h u w.
Proof. intros A B. induction B; [done|by eapply within_list|by eapply within_map]. Qed.
Lemma json_within h v j : json_of h v = Some j -> reads (fun n => within h v (HRef n)) h j v.
Proof.
  intros H. apply json_reads in H. assert (G : forall j w, within h v w -> reads (fun n => n < length h) h j w -> reads (fun n => within h v (HRef n)) h j w).
  { clear. intros j. induction j as [| | | | |l IH|m IH] using json_rect'; intros w W; try done.
    - rewrite !reads_list. intros (n & vs & -> & E2 & E3 & E4). exists n, vs. split_and!; [done..|]. rewrite Forall_forall in IH. apply Forall2_same_length_lookup_2; [by eapply Forall2_length|].
      intros i x y Hx Hy. apply IH; [by eapply elem_of_list_lookup_2|eapply within_list; [exact W|exact E3|by eapply elem_of_list_lookup_2]|by apply (Forall2_lookup_lr _ _ _ i x y E4)].
    - rewrite !reads_map. intros (n & vs & -> & E2 & E3 & E4). exists n, vs. split_and!; [done..|]. rewrite Forall_forall in IH. apply Forall2_same_length_lookup_2; [by eapply Forall2_length|].
      intros i [k x] y Hx Hy. destruct (Forall2_lookup_lr _ _ _ i _ y E4 Hx Hy) as [K R]. split; [done|]. apply IH; [by eapply elem_of_list_lookup_2|eapply within_map; [exact W|exact E3|by eapply elem_of_list_lookup_2]|done]. }
  apply G; [constructor|done].
Qed.
Lemma json_frame h h' v j : json_of h v = Some j -> (forall n, within h v (HRef n) -> n < length h -> h' !! n = h !! n) -> json_of h' v = Some j.
Proof.
  intros H F. apply json_within in H. eapply reads_json. eapply reads_mono; [| |exact H]; [done|]. intros n c Hn E. rewrite F; [done|done|by eapply lookup_lt_Some].
Qed.
