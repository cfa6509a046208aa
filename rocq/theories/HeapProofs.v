(** Proofs about memory. *)
From Verif Require Import JsonModel JsonProofs ExprModel HeapModel HeapSpec.
#[local] Open Scope nat_scope.

(** *** Reading *)
Fixpoint reads (D : nat -> Prop) (h : heap) (j : json) (v : hval) : Prop :=
  match j with
  | JNull => v = HNull
  | JBool b => v = HBool b
  | JInt n => v = HInt n
  | JFloat f => v = HFloat f
  | JStr s => v = HStr s
  | JList l => exists n vs, v = HRef n /\ D n /\ h !! n = Some (CList vs) /\
      (fix go (l : list json) (vs : list hval) : Prop := match l, vs with [], [] => True | j :: l, v :: vs => reads D h j v /\ go l vs | _, _ => False end) l vs
  | JMap m => exists n vs, v = HRef n /\ D n /\ h !! n = Some (CMap vs) /\
      (fix go (m : jobj) (vs : list (string * hval)) : Prop := match m, vs with [], [] => True | (k, j) :: m, (k', v) :: vs => (k' = k /\ reads D h j v) /\ go m vs | _, _ => False end) m vs
  end.
Definition reads_kv D h (v : string * hval) (j : string * json) : Prop := v.1 = j.1 /\ reads D h j.2 v.2.
Lemma reads_list D h l v : reads D h (JList l) v <-> exists n vs, v = HRef n /\ D n /\ h !! n = Some (CList vs) /\ Forall2 (fun v j => reads D h j v) vs l.
Proof.
  cbn. assert (A : forall vs, (fix go (l : list json) (vs : list hval) : Prop := match l, vs with [], [] => True | j :: l, v :: vs => reads D h j v /\ go l vs | _, _ => False end) l vs <-> Forall2 (fun v j => reads D h j v) vs l).
  { induction l as [|j l IH]; intros [|w vs]; split; try done.
    - intros H. inversion H.
    - intros H. inversion H.
    - intros [H1 H2]. constructor; [done|by apply IH].
    - intros H. inversion H; subst. split; [done|by apply IH]. }
  split; intros (n & vs & E1 & E2 & E3 & E4); exists n, vs; (split_and!; [done..|]); by apply A.
Qed.
Lemma reads_map D h m v : reads D h (JMap m) v <-> exists n vs, v = HRef n /\ D n /\ h !! n = Some (CMap vs) /\ Forall2 (reads_kv D h) vs m.
Proof.
  cbn. assert (A : forall vs, (fix go (m : jobj) (vs : list (string * hval)) : Prop := match m, vs with [], [] => True | (k, j) :: m, (k', v) :: vs => (k' = k /\ reads D h j v) /\ go m vs | _, _ => False end) m vs <-> Forall2 (reads_kv D h) vs m).
  { induction m as [|[k j] l IH]; intros [|[k' w] vs]; split; try done.
    - intros H. inversion H.
    - intros H. inversion H.
    - intros [H1 H2]. constructor; [done|by apply IH].
    - intros H. inversion H; subst. split; [done|by apply IH]. }
  split; intros (n & vs & E1 & E2 & E3 & E4); exists n, vs; (split_and!; [done..|]); by apply A.
Qed.
Lemma forall2_impl_in {A B} (P Q : A -> B -> Prop) l k : Forall2 P l k -> Forall (fun b => forall a, P a b -> Q a b) k -> Forall2 Q l k.
Proof. induction 1; intros H'; [constructor|]. inversion H'; subst. constructor; eauto. Qed.
(** Reading depends on the cells of the domain only. *)
Lemma reads_mono (D D' : nat -> Prop) h h' j : forall v, (forall n, D n -> D' n) -> (forall n c, D n -> h !! n = Some c -> h' !! n = Some c) -> reads D h j v -> reads D' h' j v.
Proof.
  induction j as [| | | | |l IH|m IH] using json_rect'; intros v HD HH; try done.
  - rewrite !reads_list. intros (n & vs & -> & E2 & E3 & E4). exists n, vs. split_and!; eauto. eapply forall2_impl_in; [exact E4|].
    eapply Forall_impl; [exact IH|]. intros j H w. by apply H.
  - rewrite !reads_map. intros (n & vs & -> & E2 & E3 & E4). exists n, vs. split_and!; eauto. eapply forall2_impl_in; [exact E4|].
    eapply Forall_impl; [exact IH|]. intros j H w [K1 K2]. split; [done|]. by apply H.
Qed.
Lemma reads_det D D' h j : forall j' v, reads D h j v -> reads D' h j' v -> j = j'.
Proof.
  induction j as [| | | | |l IH|m IH] using json_rect'; intros j' v.
  1-5: cbn; intros -> H; destruct j'; cbn in H; try done; (try by (injection H as ->)); by destruct H as (? & ? & ? & _).
  - rewrite reads_list. intros (n & vs & -> & _ & E3 & E4). destruct j' as [| | | | |l'|m']; try done.
    + rewrite reads_list. intros (n' & vs' & [= <-] & _ & E3' & E4'). rewrite E3 in E3'. injection E3' as <-. f_equal. clear E3. revert vs l' E4 E4'.
      induction IH as [|j l Hj _ IHl]; intros vs l' E4 E4'; inversion E4; subst; inversion E4'; subst; [done|]. f_equal; [by eapply Hj|by eapply IHl].
    + rewrite reads_map. intros (n' & vs' & [= <-] & _ & E3' & E4'). by rewrite E3 in E3'.
  - rewrite reads_map. intros (n & vs & -> & _ & E3 & E4). destruct j' as [| | | | |l'|m']; try done.
    + rewrite reads_list. intros (n' & vs' & [= <-] & _ & E3' & E4'). by rewrite E3 in E3'.
    + rewrite reads_map. intros (n' & vs' & [= <-] & _ & E3' & E4'). rewrite E3 in E3'. injection E3' as <-. f_equal. clear E3. revert vs m' E4 E4'.
      induction IH as [|[k j] l Hj _ IHl]; intros vs m' E4 E4'; inversion E4; subst; inversion E4' as [|? [k2 j2]]; subst; [done|].
      match goal with A : reads_kv _ _ ?x (k, j), B : reads_kv _ _ ?x (k2, j2) |- _ => destruct A as [A1 A2], B as [B1 B2]; cbn in *; subst end.
      f_equal; [f_equal; by eapply Hj|by eapply IHl].
Qed.

(** *** [json_of] reads *)
Fixpoint size (j : json) : nat :=
  match j with
  | JList l => S ((fix go l := match l with [] => 0 | j :: l => size j + go l end) l)
  | JMap m => S ((fix go (m : jobj) := match m with [] => 0 | (_, j) :: m => size j + go m end) m)
  | _ => 1
  end.
Lemma size_list l j : j ∈ l -> size j < size (JList l).
Proof.
  intros H. cbn. apply le_n_S. induction H as [x l|x y l H IH]; cbn; lia.
Qed.
Lemma size_map m kv : kv ∈ m -> size kv.2 < size (JMap m).
Proof.
  intros H. cbn. apply le_n_S. induction H as [[] l|x [] l H IH]; cbn; lia.
Qed.
Lemma nodup_bound (l : list nat) n : NoDup l -> Forall (fun x => x < n) l -> length l <= n.
Proof.
  intros N F. rewrite <- (seq_length n 0). apply submseteq_length. apply NoDup_submseteq; [done|]. intros x H. rewrite Forall_forall in F. apply elem_of_seq. specialize (F x H). lia.
Qed.
Lemma collect_h_forall {A B} (f : A -> option B) l k : Forall2 (fun a b => f a = Some b) l k -> collect_h f l = Some k.
Proof. induction 1 as [|a b l k H _ IH]; cbn; [done|]. by rewrite H, IH. Qed.
Lemma collect_h_inv {A B} (f : A -> option B) l : forall k, collect_h f l = Some k -> Forall2 (fun a b => f a = Some b) l k.
Proof.
  induction l as [|a l IH]; intros k; cbn; [intros [= <-]; constructor|]. destruct (f a) as [b|] eqn:E; [|done]. cbn. destruct (collect_h f l) as [bs|]; [|done].
  intros [= <-]. constructor; [done|by apply IH].
Qed.
Lemma reads_reify D h : forall j v anc fuel, reads D h j v -> NoDup anc -> Forall (fun a => a < length h /\ exists ja, reads D h ja (HRef a) /\ size j < size ja) anc ->
  length h < fuel + length anc -> reify fuel h v = Some j.
Proof.
  intros j. induction j as [| | | | |l IH|m IH] using json_rect'; intros v anc fuel H N F L; pose proof H as HR.
  1-5: cbn in H; subst v; by destruct fuel.
  - rewrite reads_list in H. destruct H as (n & vs & -> & E2 & E3 & E4). pose proof (lookup_lt_Some _ _ _ E3) as Ln.
    assert (Hn : n ∉ anc). { intros I. rewrite Forall_forall in F. destruct (F n I) as (_ & ja & R & Sz). rewrite (reads_det _ _ _ _ _ _ R HR) in Sz. lia. }
    assert (B : length (n :: anc) <= length h). { apply nodup_bound; [by constructor|]. constructor; [done|]. eapply Forall_impl; [exact F|]. by intros ? []. }
    cbn in B. destruct fuel as [|fuel]; [lia|]. cbn. rewrite E3. rewrite (collect_h_forall _ _ l); [done|].
    rewrite Forall_forall in IH. eapply forall2_impl_in; [exact E4|]. rewrite Forall_forall. intros j Hj w R. apply (IH j Hj w (n :: anc)); [done|by constructor| |cbn; lia].
    constructor; [split; [done|]; eexists; split; [exact HR|by apply size_list]|]. eapply Forall_impl; [exact F|]. intros a (La & ja & Ra & Sz). split; [done|]. exists ja. split; [done|]. apply size_list in Hj. lia.
  - rewrite reads_map in H. destruct H as (n & vs & -> & E2 & E3 & E4). pose proof (lookup_lt_Some _ _ _ E3) as Ln.
    assert (Hn : n ∉ anc). { intros I. rewrite Forall_forall in F. destruct (F n I) as (_ & ja & R & Sz). rewrite (reads_det _ _ _ _ _ _ R HR) in Sz. lia. }
    assert (B : length (n :: anc) <= length h). { apply nodup_bound; [by constructor|]. constructor; [done|]. eapply Forall_impl; [exact F|]. by intros ? []. }
    cbn in B. destruct fuel as [|fuel]; [lia|]. cbn. rewrite E3. rewrite (collect_h_forall _ _ m); [done|].
    rewrite Forall_forall in IH. eapply forall2_impl_in; [exact E4|]. rewrite Forall_forall. intros [k j] Hj [k' w] [K R]. cbn in K, R |- *. subst k'. rewrite (IH (k, j) Hj w (n :: anc)); [done|done|by constructor| |cbn; lia].
    constructor; [split; [done|]; eexists; split; [exact HR|by apply size_map]|]. eapply Forall_impl; [exact F|]. intros a (La & ja & Ra & Sz). split; [done|]. exists ja. split; [done|]. apply size_map in Hj. lia.
Qed.
Lemma reads_json D h j v : reads D h j v -> json_of h v = Some j.
Proof. intros H. unfold json_of. apply (reads_reify D h j v [] _ H); [constructor|by apply Forall_nil_2|cbn; lia]. Qed.
Lemma reify_reads h fuel : forall v j, reify fuel h v = Some j -> reads (fun n => n < length h) h j v.
Proof.
  induction fuel as [|fuel IH]; intros v j; destruct v as [| | | | |n]; cbn; try (by intros [= <-]).
  destruct (h !! n) as [[l|m]|] eqn:E; [| |done].
  - destruct (collect_h _ l) as [js|] eqn:C; [|done]. intros [= <-]. apply reads_list. exists n, l. split_and!; [done|by eapply lookup_lt_Some|done|]. apply collect_h_inv in C.
    eapply Forall2_impl; [exact C|]. intros. by apply IH.
  - destruct (collect_h _ m) as [js|] eqn:C; [|done]. intros [= <-]. apply reads_map. exists n, m. split_and!; [done|by eapply lookup_lt_Some|done|]. apply collect_h_inv in C.
    eapply Forall2_impl; [exact C|]. intros [k v] [k' j]. cbn. destruct (reify fuel h v) eqn:R; [|done]. cbn. intros [= <- <-]. split; [done|]. by apply IH.
Qed.
Lemma json_reads h v j : json_of h v = Some j -> reads (fun n => n < length h) h j v.
Proof. apply reify_reads. Qed.
Lemma within_reads D h v w : within h v w -> forall j jw, reads D h j v -> json_of h w = Some jw -> reads D h jw w.
Proof.
  intros W. assert (A : forall j, reads D h j v -> exists jw, reads D h jw w).
  { intros j R. induction W as [|n l w W IH E I|n m k w W IH E I]; [by exists j| |].
    - destruct IH as [jn Rn]. destruct jn as [| | | | |l'|m']; try done; [rewrite reads_list in Rn|rewrite reads_map in Rn]; destruct Rn as (n' & vs & [= <-] & E2 & E3 & E4); rewrite E in E3; [|done].
      injection E3 as <-. apply elem_of_list_lookup in I as [i I]. eapply Forall2_lookup_l in E4 as (jw & _ & R2); [|exact I]. by exists jw.
    - destruct IH as [jn Rn]. destruct jn as [| | | | |l'|m']; try done; [rewrite reads_list in Rn|rewrite reads_map in Rn]; destruct Rn as (n' & vs & [= <-] & E2 & E3 & E4); rewrite E in E3; [done|].
      injection E3 as <-. apply elem_of_list_lookup in I as [i I]. eapply Forall2_lookup_l in E4 as ([k' jw] & _ & _ & R2); [|exact I]. by exists jw. }
  intros j jw R J. destruct (A j R) as [jw' R']. by rewrite (reads_det _ _ _ _ _ _ (json_reads _ _ _ J) R').
Qed.

(** *** Growth *)
Definition grow (D : nat -> Prop) (h h' : heap) (n : nat) : Prop := D n \/ length h <= n < length h'.
Lemma prefix_keep (h h' : heap) n c : h `prefix_of` h' -> h !! n = Some c -> h' !! n = Some c.
Proof. intros [k ->] E. by apply lookup_app_l_Some. Qed.
Lemma reads_prefix (D D' : nat -> Prop) h h' j v : h `prefix_of` h' -> (forall n, D n -> D' n) -> reads D h j v -> reads D' h' j v.
Proof. intros P HD. apply reads_mono; [done|]. intros n c _. by apply prefix_keep. Qed.
Definition within_heap (D : nat -> Prop) (h : heap) : Prop := forall n, D n -> n < length h.
Lemma grow_bound D h h' : h `prefix_of` h' -> within_heap D h -> within_heap (grow D h h') h'.
Proof. intros P B n [H|H]; [|lia]. apply B in H. apply prefix_length in P. lia. Qed.
Lemma grow_grow D h h1 h2 n : h `prefix_of` h1 -> h1 `prefix_of` h2 -> grow (grow D h h1) h1 h2 n -> grow D h h2 n.
Proof. intros P1%prefix_length P2%prefix_length [[H|H]|H]; [by left|right; lia..]. Qed.

(** *** Allocation *)
Definition new_only (h h' : heap) (n : nat) : Prop := length h <= n < length h'.
Lemma alloc_reads j : forall h, h `prefix_of` (alloc j h).1 /\ reads (new_only h (alloc j h).1) (alloc j h).1 j (alloc j h).2.
Proof.
  induction j as [| | | | |l IH|m IH] using json_rect'; intros h; try done.
  - set (go := fix go (l : list json) (h : heap) : heap * list hval :=
        match l with [] => (h, []) | j :: l => let '(h, v) := alloc j h in let '(h, vs) := go l h in (h, v :: vs) end).
    assert (A : h `prefix_of` (go l h).1 /\ Forall2 (fun v j => reads (new_only h (go l h).1) (go l h).1 j v) (go l h).2 l).
    { revert h. induction IH as [|j l Hj _ IHl]; intros h; [split; [done|constructor]|]. cbn. specialize (Hj h). destruct (alloc j h) as [h1 v]. destruct Hj as [P1 R1]. cbn in P1, R1.
      specialize (IHl h1). fold go. destruct (go l h1) as [h2 vs]. destruct IHl as [P2 R2]. cbn in P2, R2 |- *. split; [by etrans|].
      apply prefix_length in P1 as L1. apply prefix_length in P2 as L2. constructor.
      - eapply reads_prefix; [exact P2| |exact R1]. unfold new_only. lia.
      - eapply Forall2_impl; [exact R2|]. intros w j' R. eapply reads_prefix; [reflexivity| |exact R]. unfold new_only. lia. }
    change (alloc (JList l) h) with (let '(h, vs) := go l h in (h ++ [CList vs], HRef (length h))). destruct (go l h) as [h1 vs]. cbn [fst snd] in A |- *. destruct A as [P R].
    apply prefix_length in P as L. split; [etrans; [done|by apply prefix_app_r]|]. apply reads_list. exists (length h1), vs. split_and!; [done| | |].
    + unfold new_only. rewrite app_length. cbn. lia.
    + rewrite lookup_app_r by done. by rewrite Nat.sub_diag.
    + eapply Forall2_impl; [exact R|]. intros w j' R'. eapply (reads_prefix _ _ h1); [by apply prefix_app_r| |exact R']. unfold new_only. rewrite app_length. cbn. lia.
  - set (go := fix go (m : jobj) (h : heap) : heap * list (string * hval) :=
        match m with [] => (h, []) | (k, j) :: m => let '(h, v) := alloc j h in let '(h, vs) := go m h in (h, (k, v) :: vs) end).
    assert (A : h `prefix_of` (go m h).1 /\ Forall2 (reads_kv (new_only h (go m h).1) (go m h).1) (go m h).2 m).
    { revert h. induction IH as [|[k j] l Hj _ IHl]; intros h; [split; [done|constructor]|]. cbn in Hj |- *. specialize (Hj h). destruct (alloc j h) as [h1 v]. destruct Hj as [P1 R1]. cbn in P1, R1.
      specialize (IHl h1). fold go. destruct (go l h1) as [h2 vs]. destruct IHl as [P2 R2]. cbn in P2, R2 |- *. split; [by etrans|].
      apply prefix_length in P1 as L1. apply prefix_length in P2 as L2. constructor.
      - split; [done|]. eapply reads_prefix; [exact P2| |exact R1]. unfold new_only. lia.
      - eapply Forall2_impl; [exact R2|]. intros w j' [K R]. split; [done|]. eapply reads_prefix; [reflexivity| |exact R]. unfold new_only. lia. }
    change (alloc (JMap m) h) with (let '(h, vs) := go m h in (h ++ [CMap vs], HRef (length h))). destruct (go m h) as [h1 vs]. cbn [fst snd] in A |- *. destruct A as [P R].
    apply prefix_length in P as L. split; [etrans; [done|by apply prefix_app_r]|]. apply reads_map. exists (length h1), vs. split_and!; [done| | |].
    + unfold new_only. rewrite app_length. cbn. lia.
    + rewrite lookup_app_r by done. by rewrite Nat.sub_diag.
    + eapply Forall2_impl; [exact R|]. intros w j' [K R']. split; [done|]. eapply (reads_prefix _ _ h1); [by apply prefix_app_r| |exact R']. unfold new_only. rewrite app_length. cbn. lia.
Qed.
