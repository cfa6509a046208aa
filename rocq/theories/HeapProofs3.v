(** Proofs about evaluation on memory. *)
From Verif Require Import JsonModel JsonProofs ExprModel ExprSpec ExprProofs HeapModel HeapSpec HeapProofs HeapProofs2.
#[local] Open Scope nat_scope.

(** *** Contracts *)
Definition rel A B := (nat -> Prop) -> heap -> A -> B -> Prop.
Definition mono {A B} (R : rel A B) : Prop := forall (D D' : nat -> Prop) h h' a b, h `prefix_of` h' -> (forall n, D n -> D' n) -> R D h a b -> R D' h' a b.
Definition rv : rel hval json := fun D h v j => reads D h j v.
Definition rl : rel (list hval) (list json) := fun D h => Forall2 (rv D h).
Definition rm : rel (list (string * hval)) jobj := fun D h => Forall2 (reads_kv D h).
Definition rq {A} : rel A A := fun _ _ a b => a = b.
Lemma mono_rv : mono rv.
Proof. intros D D' h h' a b. apply reads_prefix. Qed.
Lemma mono_rl : mono rl.
Proof. intros D D' h h' a b P HD H. eapply Forall2_impl; [exact H|]. intros x y. by apply mono_rv. Qed.
Lemma mono_rm : mono rm.
Proof. intros D D' h h' a b P HD H. eapply Forall2_impl; [exact H|]. intros x y [K1 K2]. split; [done|]. by eapply reads_prefix. Qed.
Lemma mono_rq {A} : mono (@rq A).
Proof. by intros D D' h h' a b P HD H. Qed.
Definition post {A B} (R : rel A B) (D : nat -> Prop) (h : heap) (o : run A) (r : res B) : Prop :=
  h `prefix_of` (o h).1 /\
  match (o h).2, r with
  | Val a, Val b => R (grow D h (o h).1) (o h).1 a b
  | Err, Err | Panic, Panic => True
  | _, _ => False
  end.
Lemma post_bind {A B A' B'} (R : rel A B) (R' : rel A' B') D h (o : run A) (r : res B) (f : A -> run A') (g : B -> res B') :
  mono R' -> within_heap D h -> post R D h o r ->
  (forall h1 a b, h `prefix_of` h1 -> within_heap (grow D h h1) h1 -> R (grow D h h1) h1 a b -> post R' (grow D h h1) h1 (f a) (g b)) ->
  post R' D h (hbind o f) (rbind r g).
Proof.
  intros M B0 [P H] K. unfold post, hbind in *. destruct (o h) as [h1 x]. cbn in P, H. destruct x as [a| |], r as [b| |]; try done; cbn [rbind].
  destruct (K h1 a b P (grow_bound _ _ _ P B0) H) as [P2 H2]. destruct (f a h1) as [h2 y]. cbn in P2, H2 |- *. split; [by etrans|].
  destruct y as [a'| |], (g b) as [b'| |]; try done. eapply M; [reflexivity| |exact H2]. intros n. by apply grow_grow.
Qed.
Lemma grow_self (D : nat -> Prop) h n : D n -> grow D h h n.
Proof. by left. Qed.
Lemma post_val {A B} (R : rel A B) D h a b : mono R -> R D h a b -> post R D h (hval_of a) (Val b).
Proof. intros M H. split; [done|]. cbn. eapply M; [reflexivity| |exact H]. intros n. apply grow_self. Qed.
Lemma post_pure {A B} (R : rel A B) D h (o : run A) r : mono R -> (o h).1 = h ->
  match (o h).2, r with Val a, Val b => R D h a b | Err, Err | Panic, Panic => True | _, _ => False end -> post R D h o r.
Proof.
  intros M E H. unfold post. rewrite E. split; [done|]. destruct (o h).2, r; try done. eapply M; [reflexivity| |exact H]. intros n. apply grow_self.
Qed.
Lemma post_hor {A} D h (o : option A) : post rq D h (hor o) (or_err o).
Proof. split; [done|]. by destruct o. Qed.
Lemma post_new_list D h vs l : within_heap D h -> rl D h vs l -> post rv D h (hnew (CList vs)) (Val (JList l)).
Proof.
  intros B H. split; [by apply prefix_app_r|]. cbn [hnew snd fst]. apply reads_list. exists (length h), vs. split_and!; [done| | |].
  - right. rewrite app_length. cbn. lia.
  - rewrite lookup_app_r by done. by rewrite Nat.sub_diag.
  - eapply mono_rl; [| |exact H]; [by apply prefix_app_r|]. intros n. by left.
Qed.
Lemma post_new_map D h vs m : within_heap D h -> rm D h vs m -> post rv D h (hnew (CMap vs)) (Val (JMap m)).
Proof.
  intros B H. split; [by apply prefix_app_r|]. cbn [hnew snd fst]. apply reads_map. exists (length h), vs. split_and!; [done| | |].
  - right. rewrite app_length. cbn. lia.
  - rewrite lookup_app_r by done. by rewrite Nat.sub_diag.
  - eapply mono_rm; [| |exact H]; [by apply prefix_app_r|]. intros n. by left.
Qed.

Lemma scalar_as {A} (f : json -> option A) D h v j : (forall l, f (JList l) = None) -> (forall m, f (JMap m) = None) -> f JNull = None -> reads D h j v -> f (h_scalar v) = f j.
Proof.
  intros F1 F2 F3 H. destruct j as [| | | | |l|m]; [cbn in H; subst; done..| |].
  - rewrite reads_list in H. destruct H as (n & vs & -> & _). cbn. by rewrite F1.
  - rewrite reads_map in H. destruct H as (n & vs & -> & _). cbn. by rewrite F2.
Qed.
Lemma null_as D h v j : reads D h j v -> h_null v = is_null j.
Proof.
  intros H. destruct j as [| | | | |l|m]; [cbn in H; subst; done..| |].
  - rewrite reads_list in H. by destruct H as (n & vs & -> & _).
  - rewrite reads_map in H. by destruct H as (n & vs & -> & _).
Qed.
Lemma post_list D h v j : reads D h j v -> post rl D h (h_list v) (or_err (as_list j)).
Proof.
  intros H. apply post_pure; [apply mono_rl| |].
  - unfold h_list. destruct v; try done. by destruct (h !! n) as [[]|].
  - destruct j as [| | | | |l|m]; [cbn in H; subst; done..| |].
    + rewrite reads_list in H. destruct H as (n & vs & -> & _ & E & F). cbn. by rewrite E.
    + rewrite reads_map in H. destruct H as (n & vs & -> & _ & E & F). cbn. by rewrite E.
Qed.
Definition as_map (j : json) : option jobj := match j with JMap m => Some m | _ => None end.
Lemma post_map D h v j : reads D h j v -> post rm D h (h_map v) (or_err (as_map j)).
Proof.
  intros H. apply post_pure; [apply mono_rm| |].
  - unfold h_map. destruct v; try done. by destruct (h !! n) as [[]|].
  - destruct j as [| | | | |l|m]; [cbn in H; subst; done..| |].
    + rewrite reads_list in H. destruct H as (n & vs & -> & _ & E & F). cbn. by rewrite E.
    + rewrite reads_map in H. destruct H as (n & vs & -> & _ & E & F). cbn. by rewrite E.
Qed.
Lemma post_unpack D h v j : reads D h j v -> post rv D h (h_unpack v) (rbind (or_err (as_list j)) (fun l => Val (JList (unpack l)))).
Proof.
  intros H. apply post_pure; [apply mono_rv| |].
  - unfold h_unpack, hbind, h_list. destruct v as [| | | | |n]; try done. destruct (h !! n) as [[l|]|]; try done. destruct l as [|[| | | | |i] l]; try done. by destruct (h !! i) as [[]|].
  - pose proof H as HR. destruct j as [| | | | |l|m]; [cbn in H; subst; done..| |].
    + rewrite reads_list in H. destruct H as (n & vs & -> & Dn & E & F). unfold h_unpack, hbind, h_list. rewrite E. cbn [as_list or_err rbind].
      destruct F as [|v j vs l Hv F]; [done|]. destruct j as [| | | | |l2|m2]; [cbn in Hv; subst; exact HR..| |].
      * pose proof Hv as Hv'. rewrite reads_list in Hv. destruct Hv as (i & ws & -> & _ & Ei & _). by rewrite Ei.
      * rewrite reads_map in Hv. destruct Hv as (i & ws & -> & _ & Ei & _). rewrite Ei. exact HR.
    + rewrite reads_map in H. destruct H as (n & vs & -> & _ & E & F). unfold h_unpack, hbind, h_list. by rewrite E.
Qed.
Lemma post_value (f : json -> res json) D h v j : reads D h j v -> post rv D h (h_value f v) (f j).
Proof.
  intros H. unfold post, h_value. rewrite (reads_json _ _ _ _ H). destruct (f j) as [j'| |]; try done. pose proof (alloc_reads j' h) as [P R]. destruct (alloc j' h) as [h' v']. cbn in *. split; [done|].
  eapply reads_mono; [| |exact R]; [|done]. intros n Hn. by right.
Qed.

Section eval.
Context {FF : FloatFmt} {EE : ExprEnv} {HE : HeapEnv}.
Hypothesis FP : faithful_paths.

Record ctx_ok (D : nat -> Prop) (h : heap) (hc : hctx) (ec : ectx) : Prop := {
  ok_object : reads D h (c_object ec) (hc_object hc);
  ok_subject : reads D h (c_subject ec) (hc_subject hc) }.
Lemma ctx_mono (D D' : nat -> Prop) h h' hc ec : h `prefix_of` h' -> (forall n, D n -> D' n) -> ctx_ok D h hc ec -> ctx_ok D' h' hc ec.
Proof. intros P HD [A B]. split; by eapply reads_prefix. Qed.
Lemma ctx_grow D h h' hc ec : h `prefix_of` h' -> ctx_ok D h hc ec -> ctx_ok (grow D h h') h' hc ec.
Proof. intros P. apply ctx_mono; [done|]. intros n. by left. Qed.
Definition hrel (f : hclo) (g : clo) : Prop := forall D h hc ec, within_heap D h -> ctx_ok D h hc ec -> post rv D h (f hc) (g ec).

Lemma get_raw_ok q D h v j : reads D h j v -> post rv D h (h_get_raw q v) (get_raw q j).
Proof.
  intros H. apply post_pure; [apply mono_rv|done|]. unfold h_get_raw, get_raw. cbn. pose proof (fp_get FP q h v j (reads_json _ _ _ _ H)) as G.
  destruct (jp_get q j) as [js|], (hp_get q h v) as [vs|]; try done. destruct G as [|w jw vs js [W J] _]; [done|]. by eapply within_reads.
Qed.
Lemma get_path_ok key : hrel (fun hc => h_get_path hc key) (fun ec => get_path ec key).
Proof.
  intros D h hc ec B [O S]. unfold h_get_path, get_path. destruct key as [|c k]; [by apply post_val; [apply mono_rv|]|]. case_decide; [|by apply post_val; [apply mono_rv|]].
  destruct (if decide (String c k = "$.") then _ else _) as [|c1 [|c2 k']]; [by apply get_raw_ok..|]. rewrite (null_as _ _ _ _ S). destruct (_ && _); by apply get_raw_ok.
Qed.

(** *** Filling a map *)
Lemma wrote_fail D h I r l o : o <> Panic -> (forall m, o <> Val m) -> wrote D h I r l h Err o.
Proof. intros H1 H2. split_and!; [done..|]. destruct o as [m| |]; try done. by destruct (H2 m). Qed.
Lemma dels_ok D h I ms : forall l vs m, trees D h I l vs m -> ksorted m ->
  exists l', trees D h I l' (foldl (fun d (kv : string * hval) => kdel d kv.1) vs ms) (foldl (fun d (k : string) => mdel d k) m (map fst ms)) /\
    ksorted (foldl (fun d (k : string) => mdel d k) m (map fst ms)) /\ forall n, n ∈ l' -> n ∈ l.
Proof.
  induction ms as [|[k v] ms IH]; intros l vs m T W; cbn; [by exists l|]. destruct (trees_del _ _ _ _ _ _ k T) as (l1 & T1 & S1).
  destruct (IH _ _ _ T1 (ksorted_del _ _ W)) as (l2 & T2 & W2 & S2). exists l2. split_and!; [done..|]. intros n H. by apply S1, S2.
Qed.
Lemma sets_ok D h (I : list string -> Prop) ms mj : (forall k, ~ I [k]) -> Forall2 (reads_kv D h) ms mj -> forall l vs m, trees D h I l vs m -> ksorted m ->
  exists l', trees D h I l' (foldl (fun d kv => kset d kv.1 kv.2) vs ms) (foldl (fun d kv => mset d kv.1 kv.2) m mj) /\
    ksorted (foldl (fun d kv => mset d kv.1 kv.2) m mj) /\ forall n, n ∈ l' -> n ∈ l.
Proof.
  intros NI. induction 1 as [|[k v] [k' j] ms mj [K R] _ IH]; intros l vs m T W; cbn; [by exists l|]. cbn in K, R. subst k'.
  destruct (trees_set D h I l vs m k [] v j T) as (l1 & T1 & S1).
  - apply t_leaf; [done|]. intros H. by destruct (NI k).
  - intros n H. by apply elem_of_nil in H.
  - destruct (IH _ _ _ T1 (ksorted_set _ _ _ W)) as (l2 & T2 & W2 & S2). exists l2. split_and!; [done..|]. intros n H. destruct (S1 n (S2 n H)) as [?|H1]; [done|by apply elem_of_nil in H1].
Qed.
Lemma foldl_map_fst {A B} (f : A -> string -> A) (l : list (string * B)) : forall a, foldl (fun d kv => f d kv.1) a l = foldl f a (map fst l).
Proof. induction l as [|x l IH]; intros a; cbn; [done|apply IH]. Qed.
Lemma rm_keys D h ms mj : Forall2 (reads_kv D h) ms mj -> map fst ms = map fst mj.
Proof. induction 1 as [|x y ms mj [K _] _ IH]; cbn; [done|]. by rewrite K, IH. Qed.
Lemma mbind_or {A B} (o : option A) (f : A -> B) : or_err (f <$> o) = rbind (or_err o) (fun x => Val (f x)).
Proof. by destruct o. Qed.
Lemma set_path_ok D h (I : list string -> Prop) r l m hc ec key p v jv : path_of key = Some p ->
  (forall p1 x q, p = p1 ++ x :: q -> p1 <> [] -> I p1) -> (p <> [] -> ~ I p) -> (p = [] -> forall k, ~ I [k]) ->
  node D h I r l m -> within_heap D h -> (forall x, x = r \/ x ∈ l -> ~ D x) -> ctx_ok D h hc ec -> reads D h jv v ->
  wrote D h I r l (h_set_path hc key v r h).1 (h_set_path hc key v r h).2 (set_path ec key jv m).
Proof.
  intros Hp HI NI NI0 Nd B Own C R. unfold h_set_path, set_path. destruct key as [|c key]; [by apply wrote_fail|].
  set (ha := match v with HStr s => h_get_path hc s | _ => hval_of v end). set (pa := match jv with JStr s => get_path ec s | _ => Val jv end).
  assert (A : (ha h).1 = h /\ match (ha h).2, pa with Val w, Val j => reads D h j w | Err, Err => True | _, _ => False end).
  { destruct jv as [| | | |s|l0|m0]; [cbn in R; subst v; by split..| | |].
    - cbn in R. subst v. subst ha pa. destruct (get_path_ok s D h hc ec B C) as [P G].
      assert (E : (h_get_path hc s h).1 = h). { unfold h_get_path. destruct s as [|c1 s]; [done|]. case_decide; [|done]. destruct (if decide (String c1 s = "$.") then _ else _) as [|c2 [|c3 s']]; try done. by destruct (_ && _). }
      rewrite E in G. split; [done|].
      assert (NP : get_path ec s <> Panic).
      { unfold get_path. destruct s as [|c1 s]; [done|]. assert (NR : forall q d, get_raw q d <> Panic). { intros q d. unfold get_raw. by destruct (jp_get q d) as [[|]|]. }
        case_decide; [|done]. destruct (if decide (String c1 s = "$.") then _ else _) as [|c2 [|c3 s']]; [apply NR..|]. destruct (_ && _); apply NR. }
      destruct (h_get_path hc s h).2, (get_path ec s); try done. eapply mono_rv; [reflexivity| |exact G]. intros n [?|?]; [done|lia].
    - pose proof R as R'. rewrite reads_list in R. destruct R as (n & vs & -> & _). by split.
    - pose proof R as R'. rewrite reads_map in R. destruct R as (n & vs & -> & _). by split. }
  fold ha pa. unfold hbind. clearbody ha pa. destruct (ha h) as [h0 x]. cbn in A. destruct A as [-> A]. destruct x as [w| |], pa as [j| |]; try done; try (by apply wrote_fail). cbn [rbind]. clear R v jv.
  unfold path_of in Hp. case_decide as K.
  - injection Hp as <-. pose proof (post_map D h w j A) as [_ PM]. assert (E : (h_map w h).1 = h). { unfold h_map. destruct w; try done. by destruct (h !! n) as [[]|]. }
    destruct (h_map w h) as [h0 x]. cbn in E, PM. subst h0. destruct j as [| | | | |l0|mj]; cbn in PM; (destruct x as [ms| |]; try done); try (by apply wrote_fail).
    destruct Nd as (vs & Er & T & N & W). rewrite Er. pose proof (lookup_lt_Some _ _ _ Er) as Lr. set (h' := <[r:=_]> h).
    assert (F : forall n c', D n \/ n ∈ l -> h !! n = Some c' -> h' !! n = Some c').
    { intros n c' Hn H. unfold h'. rewrite list_lookup_insert_ne; [done|]. intros ->. destruct Hn as [Hn|Hn]; [|done]. by apply (Own n); [left|]. }
    assert (RM : Forall2 (reads_kv D h') ms mj).
    { eapply Forall2_impl; [exact PM|]. intros a b [K1 K2]. split; [done|]. eapply reads_mono; [| |exact K2]; [intros n [?|?]; [done|lia]|]. intros n c' [Hn|?]; [|lia]. apply F. by left. }
    assert (T' : trees D h' I l vs m) by (by eapply trees_frame; [|exact F|]).
    destruct (dels_ok D h' I ms l vs m T' W) as (l1 & T1 & W1 & S1). rewrite (rm_keys _ _ _ _ RM) in T1, W1. rewrite <- foldl_map_fst in T1, W1.
    destruct (sets_ok D h' I ms mj (NI0 eq_refl) RM l1 _ _ T1 W1) as (l2 & T2 & W2 & S2).
    unfold wrote. cbn [fst snd]. split_and!; [unfold h'; by rewrite insert_length|intros i c' H1 _; unfold h'; by rewrite list_lookup_insert_ne|].
    exists l2. split; [|intros n H; left; by apply S1, S2]. eexists. split_and!; [by apply list_lookup_insert|exact T2| |done]. intros H. by apply N, S1, S2.
  - case_decide as K2.
    + rewrite Hp. destruct (fp_set FP _ _ Hp) as [Np FS]. rewrite FS. pose proof (h_set_ok D p I r l m h w j Nd B Own Np A HI (NI Np)) as X.
      destruct (set_at p j m); exact X.
    + injection Hp as <-. exact (h_set_ok D [String c key] I r l m h w j Nd B Own ltac:(done) A HI (NI ltac:(done))).
Qed.

Definition key_ok (I : list string -> Prop) (key : string) : Prop :=
  exists p, path_of key = Some p /\ (forall p1 x q, p = p1 ++ x :: q -> p1 <> [] -> I p1) /\ (p <> [] -> ~ I p) /\ (p = [] -> forall k, ~ I [k]).
Lemma dict_ok I m1 m2 : Forall2 (fun a b => a.1 = b.1 /\ hrel a.2 b.2 /\ key_ok I a.1) m1 m2 ->
  forall D h r l m hc ec, node D h I r l m -> within_heap D h -> (forall x, x = r \/ x ∈ l -> ~ D x) -> ctx_ok D h hc ec ->
  let o := h_dict_loop m1 hc r h in
  length h <= length o.1 /\ (forall i c, i <> r -> i ∉ l -> h !! i = Some c -> o.1 !! i = Some c) /\
  match o.2, dict_loop m2 ec m with
  | Val _, Val m' => exists D' l', node D' o.1 I r l' m' /\ (forall n, D' n -> D n \/ length h <= n < length o.1) /\ forall n, n ∈ l' -> n ∈ l \/ length h <= n < length o.1
  | Err, Err | Panic, Panic => True
  | _, _ => False
  end.
Proof.
  induction 1 as [|[k f] [k' g] m1 m2 (E & H & p & Kp & K1 & K2 & K3) _ IH]; intros D h r l m hc ec Nd B Own C.
  - cbn. split_and!; [done..|]. exists D, l. split_and!; [done|by left|by left].
  - cbn in E, H. subst k'. cbn [h_dict_loop dict_loop]. unfold hbind. destruct (H D h hc ec B C) as [P R]. destruct (f hc h) as [h1 x]. cbn [fst snd] in P, R.
    apply prefix_length in P as L1.
    destruct x as [v| |], (g ec) as [j| |]; try done; [|split_and!; [done| |done]; intros i c _ _; by apply prefix_keep..]. cbn [rbind].
    assert (Nd1 : node (grow D h h1) h1 I r l m).
    { destruct Nd as (vs & Er & T & N & W). exists vs. split_and!; [by eapply prefix_keep| |done|done]. eapply trees_frame; [| |exact T]; [intros n; by left|]. intros n c _. by apply prefix_keep. }
    assert (Bl : forall x, x = r \/ x ∈ l -> x < length h).
    { destruct Nd as (vs & Er & T & N & W). intros x [->|Hx]; [by eapply lookup_lt_Some|by eapply trees_bound]. }
    assert (Own1 : forall x, x = r \/ x ∈ l -> ~ grow D h h1 x). { intros x Hx [Hd|Hd]; [by apply (Own x)|]. apply Bl in Hx. lia. }
    pose proof (grow_bound _ _ _ P B) as B1. pose proof (ctx_grow _ _ _ _ _ P C) as C1. cbn [fst] in Kp.
    pose proof (set_path_ok _ h1 I r l m hc ec k p v j Kp K1 K2 K3 Nd1 B1 Own1 C1 R) as (L2 & F2 & M2). destruct (h_set_path hc k v r h1) as [h2 y]. cbn [fst snd] in *.
    assert (F2' : forall i c, i <> r -> i ∉ l -> h !! i = Some c -> h2 !! i = Some c). { intros i c Hi1 Hi2 Hi. apply F2; [done|done|]. by eapply prefix_keep. }
    destruct y as [[]| |], (set_path ec k j m) as [m'| |]; try done; [|cbn [fst snd rbind]; split_and!; [lia|done|done]..]. cbn [rbind]. destruct M2 as (l2 & Nd2 & S2).
    assert (B2 : within_heap (grow D h h1) h2). { intros n Hn. apply B1 in Hn. lia. }
    assert (Own2 : forall x, x = r \/ x ∈ l2 -> ~ grow D h h1 x). { intros x [->|Hx]; [apply Own1; by left|]. destruct (S2 x Hx) as [Hl|Hl]; [apply Own1; by right|]. intros Hd%B1. lia. }
    assert (C2 : ctx_ok (grow D h h1) h2 hc ec).
    { destruct C1 as [O S]. split; (eapply reads_mono; [| |eassumption]; [done|]); intros n c Hn; (apply F2; [intros ->; apply (Own1 r); [by left|done]|intros Hl; apply (Own1 n); [by right|done]]). }
    destruct (IH _ h2 r l2 m' hc ec Nd2 B2 Own2 C2) as (L3 & F3 & M3). split_and!; [lia| |].
    + intros i c Hi1 Hi2 Hi. apply F3; [done| |by apply F2']. intros Hi3. destruct (S2 i Hi3) as [?|Hl]; [done|]. apply lookup_lt_Some in Hi. lia.
    + destruct (h_dict_loop m1 hc r h2) as [h3 z]. cbn [fst snd] in *. destruct z as [[]| |], (dict_loop m2 ec m') as [m3| |]; try done. destruct M3 as (D' & l' & Nd3 & S3 & S4).
      exists D', l'. split_and!; [done| |].
      * intros n Hn. destruct (S3 n Hn) as [[?|?]|?]; [by left|right; lia..].
      * intros n Hn. destruct (S4 n Hn) as [Hl|?]; [|right; lia]. destruct (S2 n Hl) as [?|?]; [by left|right; lia].
Qed.
Lemma prefix_from (h h' : heap) : length h <= length h' -> (forall i c, h !! i = Some c -> h' !! i = Some c) -> h `prefix_of` h'.
Proof.
  intros L F. exists (drop (length h) h'). rewrite <- (take_drop (length h) h') at 1. f_equal. apply list_eq. intros i. destruct (decide (i < length h)) as [Hi|Hi].
  - rewrite lookup_take by done. destruct (h !! i) as [c|] eqn:E; [by apply F|]. apply lookup_ge_None in E. lia.
  - rewrite lookup_take_ge by lia. symmetry. apply lookup_ge_None. lia.
Qed.
Lemma post_dict I m1 m2 D h hc ec : Forall2 (fun a b => a.1 = b.1 /\ hrel a.2 b.2 /\ key_ok I a.1) m1 m2 -> within_heap D h -> ctx_ok D h hc ec ->
  post rv D h (fun h => let r := length h in hbind (h_dict_loop m1 hc r) (fun _ => hval_of (HRef r)) (h ++ [CMap []])) (rbind (dict_loop m2 ec []) (fun m => Val (JMap m))).
Proof.
  intros H B C. set (h1 := h ++ [CMap []]). assert (Ln : length h1 = S (length h)). { unfold h1. rewrite app_length. cbn. lia. }
  assert (P1 : h `prefix_of` h1) by (by apply prefix_app_r).
  destruct (dict_ok I m1 m2 H D h1 (length h) [] [] hc ec) as (L & F & M).
  - exists []. split_and!; [|constructor|apply not_elem_of_nil|constructor]. unfold h1. rewrite lookup_app_r by done. by rewrite Nat.sub_diag.
  - intros n Hn. apply B in Hn. lia.
  - intros x [->|Hx]; [|by apply elem_of_nil in Hx]. intros Hd. apply B in Hd. lia.
  - eapply ctx_mono; [exact P1| |exact C]. done.
  - unfold post. cbn zeta. unfold hbind. fold h1. destruct (h_dict_loop m1 hc (length h) h1) as [h2 x]. cbn [fst snd] in *.
    assert (P2 : h `prefix_of` h2).
    { apply prefix_from; [lia|]. intros i c Hi. apply F; [|apply not_elem_of_nil|by eapply prefix_keep]. apply lookup_lt_Some in Hi. lia. }
    destruct x as [[]| |], (dict_loop m2 ec []) as [m| |]; try done. unfold hval_of. cbn [fst snd rbind]. split; [done|]. destruct M as (D' & l' & Nd & S1 & S2).
    destruct Nd as (vs & Er & T & N & W). pose proof (t_node _ _ _ _ _ _ _ Er T N W) as X. apply (proj1 (tree_reads_both D' h2)) in X. unfold rv. eapply reads_mono; [| |exact X]; [|done].
    pose proof (lookup_lt_Some _ _ _ Er). intros n [Hn|[->|Hn]%elem_of_cons]; unfold grow.
    + destruct (S1 n Hn); [by left|right; lia].
    + right. lia.
    + destruct (S2 n Hn) as [Hx|?]; [by apply elem_of_nil in Hx|right; lia].
Qed.

(** *** Operations *)
Lemma test_ok f g D h hc ec : hrel f g -> within_heap D h -> ctx_ok D h hc ec -> post rq D h (h_test f hc) (test g ec).
Proof.
  intros H B C. unfold h_test, test. eapply post_bind; [apply mono_rq|done|by apply H|]. intros h1 v j P B1 R. rewrite (scalar_as as_bool _ _ _ _ ltac:(done) ltac:(done) ltac:(done) R). apply post_hor.
Qed.
Lemma with_args_ok {A A' B B'} (Q : A -> A' -> Prop) (R : rel B B') (a : option (option A)) (b : option (option A')) D h k1 k2 :
  match a, b with Some (Some x), Some (Some y) => Q x y | Some None, Some None | None, None => True | _, _ => False end ->
  (forall x y, Q x y -> post R D h (k1 x) (k2 y)) -> post R D h (h_with_args a k1) (with_args b k2).
Proof. destruct a as [[a|]|], b as [[b|]|]; cbn; try done. intros H K. by apply K. Qed.
Ltac lift := eapply post_bind; [first [apply mono_rv|apply mono_rl|apply mono_rq]|done| |].
Ltac val := apply post_val; [first [apply mono_rv|apply mono_rl|apply mono_rq]|].
Lemma junction_ok stop fs gs D h hc ec : Forall2 hrel fs gs -> within_heap D h -> ctx_ok D h hc ec -> post rv D h (h_junction stop fs hc) (junction stop gs ec).
Proof.
  intros H. revert D h. induction H as [|f g fs gs H1 H2 IH]; intros D h B C; cbn; [by val|]. lift; [by apply test_ok|]. intros h1 b ? P B1 <-.
  destruct (Bool.eqb b stop); [by val|]. apply IH; [done|by apply ctx_grow].
Qed.
Lemma subject_ok D h hc ec v j : ctx_ok D h hc ec -> rv D h v j -> ctx_ok D h (h_subject hc v) (with_subject ec j).
Proof. intros [O S] H. by split. Qed.
Lemma filter_ok f g D h hc ec vs l : hrel f g -> within_heap D h -> ctx_ok D h hc ec -> rl D h vs l -> post rl D h (h_filter_loop f hc vs) (filter_loop g ec l).
Proof.
  intros H B C R. remember (length vs) as n eqn:En. revert D h vs l En B C R. induction n as [|n IH]; intros D h vs l En B C R; (destruct R as [|v j vs l Rv R]; [by val; constructor|]); [done|]. cbn in En |- *.
  lift; [apply test_ok; [done|done|by apply subject_ok]|]. intros h1 b ? P B1 <-. lift.
  - apply IH; [lia|done|by apply ctx_grow|]. eapply mono_rl; [exact P| |exact R]. intros x. by left.
  - intros h2 a b2 P2 B2 R2. val. destruct b; [|done]. constructor; [|done]. eapply mono_rv; [exact (transitivity P P2)| |exact Rv]. intros x Hx. left. by left.
Qed.
Lemma map_ok f g D h hc ec vs l : hrel f g -> within_heap D h -> ctx_ok D h hc ec -> rl D h vs l -> post rl D h (h_map_loop f hc vs) (map_loop g ec l).
Proof.
  intros H B C R. remember (length vs) as n eqn:En. revert D h vs l En B C R. induction n as [|n IH]; intros D h vs l En B C R; (destruct R as [|v j vs l Rv R]; [by val; constructor|]); [done|]. cbn in En |- *.
  lift; [apply H; [done|by apply subject_ok]|]. intros h1 w jw P B1 Rw. lift.
  - apply IH; [lia|done|by apply ctx_grow|]. eapply mono_rl; [exact P| |exact R]. intros x. by left.
  - intros h2 a b2 P2 B2 R2. val. constructor; [|done]. eapply mono_rv; [exact P2| |exact Rw]. intros x Hx. by left.
Qed.
Lemma quant_ok a b c f g D h hc ec vs l : hrel f g -> within_heap D h -> ctx_ok D h hc ec -> rl D h vs l -> post rv D h (h_quant_loop a b c f hc vs) (quant_loop a b c g ec l).
Proof.
  intros H B C R. remember (length vs) as n eqn:En. revert D h vs l En B C R. induction n as [|n IH]; intros D h vs l En B C R; (destruct R as [|v j vs l Rv R]; [by val|]); [done|]. cbn in En |- *.
  lift; [apply test_ok; [done|done|by apply subject_ok]|]. intros h1 x ? P B1 <-. destruct (Bool.eqb x b); [by val|].
  apply IH; [lia|done|by apply ctx_grow|]. eapply mono_rl; [exact P| |exact R]. intros y. by left.
Qed.
Lemma on_list_ok {A B} (R : rel A B) f g D h hc ec k1 k2 : mono R -> hrel f g -> within_heap D h -> ctx_ok D h hc ec ->
  (forall D1 h1 vs l, within_heap D1 h1 -> ctx_ok D1 h1 hc ec -> rl D1 h1 vs l -> post R D1 h1 (k1 vs) (k2 l)) -> post R D h (h_on_list hc f k1) (on_list ec g k2).
Proof.
  intros M H B0 C K. unfold h_on_list, on_list. eapply post_bind; [done|done|by apply H|]. intros h1 v j P B1 Rv. eapply post_bind; [done|done|by apply post_list|]. intros h2 vs l P2 B2 Rl.
  apply K; [done|apply ctx_grow; [done|by apply ctx_grow]|done].
Qed.
Lemma list_loop_ok fs gs D h hc ec : Forall2 hrel fs gs -> within_heap D h -> ctx_ok D h hc ec -> post rl D h (h_list_loop fs hc) (list_loop gs ec).
Proof.
  intros H. revert D h. induction H as [|f g fs gs H1 H2 IH]; intros D h B C; cbn; [by val; constructor|]. lift; [by apply H1|]. intros h1 v j P B1 R. lift; [apply IH; [done|by apply ctx_grow]|].
  intros h2 a b2 P2 B2 R2. val. constructor; [|done]. eapply mono_rv; [exact P2| |exact R]. intros x Hx. by left.
Qed.
Definition opt2 {A B} (Q : A -> B -> Prop) (a : option A) (b : option B) : Prop := match a, b with Some x, Some y => Q x y | None, None => True | _, _ => False end.
Lemma switch_ok ps qs D h hc ec : Forall2 (opt2 (Forall2 hrel)) ps qs -> within_heap D h -> ctx_ok D h hc ec -> post rv D h (h_switch_loop ps hc) (switch_loop qs ec).
Proof.
  intros H. revert D h. induction H as [|p q ps qs H1 H2 IH]; intros D h B C; cbn; [by val|]. destruct p as [fs|], q as [gs|]; cbn in H1; try done.
  destruct H1 as [|f g fs gs F1 H1]; [done|]. destruct H1 as [|f2 g2 fs gs F2 H1]; [done|]. destruct H1; [|done].
  lift; [by apply test_ok|]. intros h1 b ? P B1 <-. destruct b; [apply F2|apply IH]; try done; by apply ctx_grow.
Qed.

Record hprel (p : hparts) (q : parts) : Prop := {
  hr_arg : opt2 hrel (hp_arg p) (p_arg q);
  hr_args : opt2 (opt2 (Forall2 hrel)) (hp_args p) (p_args q);
  hr_pairs : opt2 (opt2 (Forall2 (opt2 (Forall2 hrel)))) (hp_pairs p) (p_pairs q);
  hr_val : hp_val p = p_val q;
  hr_list : opt2 (Forall2 hrel) (hp_list p) (p_list q);
  hr_map : opt2 (fun a b => exists I, Forall2 (fun a b => a.1 = b.1 /\ hrel a.2 b.2 /\ key_ok I a.1) a b) (hp_map p) (p_map q) }.
Lemma in_order_rel I (m : list (string * hclo)) (n : list (string * clo)) : Forall2 (fun a b => a.1 = b.1 /\ hrel a.2 b.2 /\ key_ok I a.1) m n ->
  Forall2 (fun a b => a.1 = b.1 /\ hrel a.2 b.2 /\ key_ok I a.1) (in_order m) (in_order n).
Proof.
  intros H. unfold in_order. assert (E : map fst m = map fst n). { induction H as [|a b m n (E & _) _ IH]; cbn; [done|]. by rewrite E, IH. }
  rewrite E. induction (iterate (map fst n)) as [|k ks IH]; cbn; [constructor|].
  assert (A : opt2 (fun a b => a.1 = b.1 /\ hrel a.2 b.2 /\ key_ok I a.1) (List.find (fun kv : string * hclo => String.eqb kv.1 k) m) (List.find (fun kv : string * clo => String.eqb kv.1 k) n)).
  { clear -H. induction H as [|a b m n (E & H1) _ IH]; cbn; [done|]. rewrite E. destruct (String.eqb b.1 k); [cbn; by rewrite E in *|exact IH]. }
  destruct (List.find _ m), (List.find _ n); cbn in A; try done. by constructor.
Qed.
Lemma post_scalar {A} (f : json -> option A) (c : A -> hval) (c' : A -> json) D h v j : (forall l, f (JList l) = None) -> (forall m, f (JMap m) = None) -> f JNull = None ->
  (forall a, rv D h (c a) (c' a)) -> reads D h j v -> post rv D h (hor (c <$> f (h_scalar v))) (or_err (c' <$> f j)).
Proof.
  intros F1 F2 F3 H R. rewrite (scalar_as f _ _ _ _ F1 F2 F3 R). apply post_pure; [apply mono_rv|done|]. cbn. by destruct (f j); cbn.
Qed.
End eval.
