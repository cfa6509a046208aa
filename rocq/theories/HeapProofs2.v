(** Proofs about the map that a map literal fills. *)
From Verif Require Import JsonModel JsonProofs ExprModel HeapModel HeapSpec HeapProofs.
#[local] Open Scope nat_scope.

(** The cells [ls] are owned by the map being filled, the rest is read in [D].  [I] says
    at which places below a map may be owned: a map that is there must be. *)
Inductive tree (D : nat -> Prop) (h : heap) : (list string -> Prop) -> list nat -> hval -> json -> Prop :=
  | t_leaf (I : list string -> Prop) v j : reads D h j v -> (I [] -> forall m, j <> JMap m) -> tree D h I [] v j
  | t_node (I : list string -> Prop) n ls vs m : h !! n = Some (CMap vs) -> trees D h I ls vs m -> n ∉ ls -> ksorted m -> tree D h I (n :: ls) (HRef n) (JMap m)
with trees (D : nat -> Prop) (h : heap) : (list string -> Prop) -> list nat -> list (string * hval) -> jobj -> Prop :=
  | ts_nil (I : list string -> Prop) : trees D h I [] [] []
  | ts_cons (I : list string -> Prop) k v j l1 l2 vs m : tree D h (fun p => I (k :: p)) l1 v j -> trees D h I l2 vs m -> (forall n, n ∈ l1 -> n ∉ l2) -> trees D h I (l1 ++ l2) ((k, v) :: vs) ((k, j) :: m).
Scheme tree_mut := Induction for tree Sort Prop with trees_mut := Induction for trees Sort Prop.
Combined Scheme tree_both from tree_mut, trees_mut.

Lemma tree_frame_both (D D' : nat -> Prop) h h' : (forall n, D n -> D' n) -> (forall n c, D n -> h !! n = Some c -> h' !! n = Some c) ->
  (forall I ls v j, tree D h I ls v j -> (forall n c, n ∈ ls -> h !! n = Some c -> h' !! n = Some c) -> tree D' h' I ls v j) /\
  (forall I ls vs m, trees D h I ls vs m -> (forall n c, n ∈ ls -> h !! n = Some c -> h' !! n = Some c) -> trees D' h' I ls vs m).
Proof.
  intros HD HH. apply (tree_both D h (fun I ls v j _ => (forall n c, n ∈ ls -> h !! n = Some c -> h' !! n = Some c) -> tree D' h' I ls v j)
    (fun I ls vs m _ => (forall n c, n ∈ ls -> h !! n = Some c -> h' !! n = Some c) -> trees D' h' I ls vs m)).
  - intros I v j R L _. apply t_leaf; [|done]. by eapply reads_mono.
  - intros I n ls vs m E T IH N K F. eapply t_node; [apply F; [by left|done]| |done|done]. apply IH. intros x c Hx. apply F. by right.
  - intros I F. constructor.
  - intros I k v j l1 l2 vs m T1 IH1 T2 IH2 N F. constructor; [|apply IH2|done].
    + apply IH1. intros n c Hn. apply F. apply elem_of_app. by left.
    + intros n c Hn. apply F. apply elem_of_app. by right.
Qed.
Lemma tree_frame (D D' : nat -> Prop) h h' I ls v j : (forall n, D n -> D' n) -> (forall n c, D n \/ n ∈ ls -> h !! n = Some c -> h' !! n = Some c) -> tree D h I ls v j -> tree D' h' I ls v j.
Proof. intros HD HH T. eapply tree_frame_both; [exact HD| |exact T|]; eauto. Qed.
Lemma trees_frame (D D' : nat -> Prop) h h' I ls v j : (forall n, D n -> D' n) -> (forall n c, D n \/ n ∈ ls -> h !! n = Some c -> h' !! n = Some c) -> trees D h I ls v j -> trees D' h' I ls v j.
Proof. intros HD HH T. eapply tree_frame_both; [exact HD| |exact T|]; eauto. Qed.
Lemma tree_reads_both D h :
  (forall I ls v j, tree D h I ls v j -> reads (fun n => D n \/ n ∈ ls) h j v) /\
  (forall I ls vs m, trees D h I ls vs m -> Forall2 (reads_kv (fun n => D n \/ n ∈ ls) h) vs m).
Proof.
  apply (tree_both D h (fun I ls v j _ => reads (fun n => D n \/ n ∈ ls) h j v) (fun I ls vs m _ => Forall2 (reads_kv (fun n => D n \/ n ∈ ls) h) vs m)).
  - intros I v j R L. eapply reads_mono; [| |exact R]; [by left|done].
  - intros I n ls vs m E T IH N K. apply reads_map. exists n, vs. split_and!; [done|right; by left|done|]. eapply Forall2_impl; [exact IH|].
    intros x y [K1 K2]. split; [done|]. eapply reads_mono; [| |exact K2]; [|done]. intros z [?|?]; [by left|right; by right].
  - intros I. constructor.
  - intros I k v j l1 l2 vs m T1 IH1 T2 IH2 N. constructor.
    + split; [done|]. eapply reads_mono; [| |exact IH1]; [|done]. intros z [?|?]; [by left|right; apply elem_of_app; by left].
    + eapply Forall2_impl; [exact IH2|]. intros x y [K1 K2]. split; [done|]. eapply reads_mono; [| |exact K2]; [|done]. intros z [?|?]; [by left|right; apply elem_of_app; by right].
Qed.
Lemma tree_bound_both D h :
  (forall I ls v j, tree D h I ls v j -> forall n, n ∈ ls -> n < length h) /\
  (forall I ls vs m, trees D h I ls vs m -> forall n, n ∈ ls -> n < length h).
Proof.
  apply (tree_both D h (fun I ls v j _ => forall n, n ∈ ls -> n < length h) (fun I ls vs m _ => forall n, n ∈ ls -> n < length h)).
  - intros I v j R L n H. by apply elem_of_nil in H.
  - intros I n ls vs m E T IH N K x [->|H]%elem_of_cons; [by eapply lookup_lt_Some|by apply IH].
  - intros I n H. by apply elem_of_nil in H.
  - intros I k v j l1 l2 vs m T1 IH1 T2 IH2 N x [H|H]%elem_of_app; [by apply IH1|by apply IH2].
Qed.
Lemma trees_bound D h I ls vs m n : trees D h I ls vs m -> n ∈ ls -> n < length h.
Proof. intros T. by eapply tree_bound_both. Qed.

(** *** Entries *)
Lemma trees_get D h I l vs m k : trees D h I l vs m ->
  match kget vs k, mget m k with
  | None, None => True
  | Some v, Some j => True
  | _, _ => False
  end.
Proof. induction 1 as [|I k' v j l1 l2 vs m T1 T2 IH N]; cbn; [done|]. by case_decide. Qed.
Lemma trees_set D h I l vs m k lk v j : trees D h I l vs m -> tree D h (fun p => I (k :: p)) lk v j -> (forall n, n ∈ lk -> n ∉ l) ->
  exists l', trees D h I l' (kset vs k v) (mset m k j) /\ forall n, n ∈ l' -> n ∈ l \/ n ∈ lk.
Proof.
  intros T. revert lk v j. induction T as [I|I k' v' j' l1 l2 vs m T1 T2 IH N]; intros lk v j Tk Nk; cbn.
  - exists (lk ++ []). split; [constructor; [done|constructor|]|]. { intros n _. apply not_elem_of_nil. } intros n. rewrite app_nil_r. by right.
  - destruct (scmp k k') eqn:E.
    + apply scmp_eq in E. subst k'. exists (lk ++ l2). split.
      * constructor; [done|done|]. intros n H1 H2. apply (Nk n H1). apply elem_of_app. by right.
      * intros n [H|H]%elem_of_app; [by right|]. left. apply elem_of_app. by right.
    + exists (lk ++ (l1 ++ l2)). split; [constructor; [done|by constructor|done]|]. intros n [H|H]%elem_of_app; [by right|by left].
    + destruct (IH lk v j Tk) as (l' & T' & H'). { intros n H1 H2. apply (Nk n H1). apply elem_of_app. by right. }
      exists (l1 ++ l'). split; [constructor; [done|done|]|].
      * intros n H1 H2. destruct (H' n H2) as [H3|H3]; [by apply (N n)|]. apply (Nk n H3). apply elem_of_app. by left.
      * intros n [H|H]%elem_of_app; [left; apply elem_of_app; by left|]. destruct (H' n H) as [H3|H3]; [left; apply elem_of_app; by right|by right].
Qed.
Lemma trees_del D h I l vs m k : trees D h I l vs m -> exists l', trees D h I l' (kdel vs k) (mdel m k) /\ forall n, n ∈ l' -> n ∈ l.
Proof.
  induction 1 as [I|I k' v' j' l1 l2 vs m T1 T2 IH N]; cbn; [by exists []; split; [constructor|]|]. case_decide.
  - exists l2. split; [done|]. intros n H1. apply elem_of_app. by right.
  - destruct IH as (l' & T' & H'). exists (l1 ++ l'). split; [constructor; [done|done|]|].
    + intros n H1 H2%H'. by apply (N n).
    + intros n [H1|H1]%elem_of_app; apply elem_of_app; [by left|right; by apply H'].
Qed.
Lemma trees_upd D h I l vs m k v j : trees D h I l vs m -> ksorted m -> kget vs k = Some v -> mget m k = Some j ->
  exists (lk lr : list nat), tree D h (fun p => I (k :: p)) lk v j /\ (forall n, n ∈ lk -> n ∉ lr) /\ (forall n, n ∈ l <-> n ∈ lk \/ n ∈ lr) /\
    forall h' lk' j', (forall n c, D n \/ n ∈ lr -> h !! n = Some c -> h' !! n = Some c) -> tree D h' (fun p => I (k :: p)) lk' v j' -> (forall n, n ∈ lk' -> n ∉ lr) ->
      exists l', trees D h' I l' vs (mset m k j') /\ forall n, n ∈ l' -> n ∈ lk' \/ n ∈ lr.
Proof.
  induction 1 as [I|I k0 v0 j0 l1 l2 vs m T1 T2 IH N]; intros W; cbn; [done|]. apply ksorted_cons in W as [W1 W2]. case_decide as K.
  - subst k0. intros [= <-] [= <-]. exists l1, l2. split_and!; [done|done|intros n; by rewrite elem_of_app|]. intros h' lk' j' F T' N'.
    exists (lk' ++ l2). assert (E : scmp k k = Eq) by (by apply scmp_eq). rewrite E. split; [constructor; [done| |done]|].
    + eapply trees_frame; [|exact F|exact T2]. done.
    + intros n. by rewrite elem_of_app.
  - intros K1 K2. destruct (IH W1 K1 K2) as (lk & lr & T & N1 & S & U). exists lk, (l1 ++ lr).
    assert (E : scmp k k0 = Gt). { apply scmp_gt. rewrite Forall_forall in W2. apply (W2 (k, j)). clear -K2. induction m as [|[k' w] m IH]; cbn in K2; [done|]. case_decide; [injection K2 as ->; subst; by left|right; by apply IH]. }
    split_and!; [done| | |].
    + intros n H1 [H2|H2]%elem_of_app; [apply (N n H2); apply S; by left|by apply (N1 n)].
    + intros n. rewrite !elem_of_app. rewrite S. tauto.
    + intros h' lk' j' F T' N'. rewrite E. destruct (U h' lk' j') as (l' & T3 & S3); [|exact T'| |].
      * intros n c [H1|H1]; apply F; [by left|right; apply elem_of_app; by right].
      * intros n H1 H2. apply (N' n H1). apply elem_of_app. by right.
      * exists (l1 ++ l'). split; [constructor; [|exact T3|]|].
        -- eapply tree_frame; [| |exact T1]; [done|]. intros n c [H1|H1]; apply F; [by left|right; apply elem_of_app; by left].
        -- intros n H1 H2. destruct (S3 n H2) as [H3|H3]; [apply (N' n H3); apply elem_of_app; by left|]. apply (N n H1). apply S. by right.
        -- intros n [H1|H1]%elem_of_app; [right; apply elem_of_app; by left|]. destruct (S3 n H1); [by left|right; apply elem_of_app; by right].
Qed.

(** *** The map at [r], holding [m] *)
Definition node D h I (r : nat) (l : list nat) (m : jobj) : Prop :=
  exists vs, h !! r = Some (CMap vs) /\ trees D h I l vs m /\ r ∉ l /\ ksorted m.
(** What a write to it leaves. *)
Definition wrote D h I (r : nat) (l : list nat) (h' : heap) (x : res unit) (o : res jobj) : Prop :=
  length h <= length h' /\ (forall i c, i <> r -> i ∉ l -> h !! i = Some c -> h' !! i = Some c) /\
  match x, o with
  | Val _, Val m' => exists l', node D h' I r l' m' /\ forall n, n ∈ l' -> n ∈ l \/ length h <= n < length h'
  | Err, Err | Panic, Panic => True
  | _, _ => False
  end.
Lemma h_set_ok D p : forall I r l m h v jv, node D h I r l m -> within_heap D h -> (forall x, x = r \/ x ∈ l -> ~ D x) -> p <> [] ->
  reads D h jv v -> (forall p1 x q, p = p1 ++ x :: q -> p1 <> [] -> I p1) -> ~ I p ->
  wrote D h I r l (h_set p v r h).1 (h_set p v r h).2 (or_err (set_at p jv m)).
Proof.
  induction p as [|k p IH]; intros I r l m h v jv (vs & E & T & N & W) B Own Hp R HI NI; [done|]. clear Hp.
  pose proof (lookup_lt_Some _ _ _ E) as Lr.
  destruct p as [|k2 p].
  - cbn. rewrite E. cbn. unfold wrote. rewrite insert_length. split_and!; [done| |].
    + intros i c H1 _. rewrite list_lookup_insert_ne; [done|congruence].
    + set (h' := <[r:=CMap (kset vs k v)]> h).
      assert (F : forall n c, D n \/ n ∈ l -> h !! n = Some c -> h' !! n = Some c).
      { intros n c Hn H. unfold h'. rewrite list_lookup_insert_ne; [done|]. intros ->. destruct Hn as [Hn|Hn]; [|done]. by apply (Own n); [left|]. }
      destruct (trees_set D h' I l vs m k [] v jv) as (l' & T' & S').
      * by eapply trees_frame; [|exact F|].
      * apply t_leaf; [|done]. eapply reads_mono; [| |exact R]; [done|]. intros n c Hn. apply F. by left.
      * intros n H. by apply elem_of_nil in H.
      * assert (S2 : forall n, n ∈ l' -> n ∈ l). { intros n H. destruct (S' n H) as [?|H1]; [done|by apply elem_of_nil in H1]. }
        exists l'. split; [|intros n H; left; by apply S2]. exists (kset vs k v). split_and!; [by apply list_lookup_insert|done|intros H; by apply N, S2|by apply ksorted_set].
  - change (h_set (k :: k2 :: p) v r h) with (match h !! r with
      | Some (CMap m) =>
          match kget m k with
          | None => h_set (k2 :: p) v (length h) (<[r := CMap (kset m k (HRef (length h)))]> h ++ [CMap []])
          | Some (HRef n) => h_set (k2 :: p) v n h
          | Some _ => (h, Err)
          end
      | _ => (h, Err) end).
    rewrite E. pose proof (trees_get _ _ _ _ _ _ k T) as G. destruct (kget vs k) as [w|] eqn:KG, (mget m k) as [j|] eqn:MG; try done.
    + destruct (trees_upd _ _ _ _ _ _ k w j T W KG MG) as (lk & lr & Tk & Nk & S & U).
      assert (SA : set_at (k :: k2 :: p) jv m = match j with JMap m2 => x ← set_at (k2 :: p) jv m2; Some (mset m k (JMap x)) | _ => None end).
      { change (set_at (k :: k2 :: p) jv m) with (match mget m k with
          | None => x ← set_at (k2 :: p) jv []; Some (mset m k (JMap x))
          | Some (JMap m2) => x ← set_at (k2 :: p) jv m2; Some (mset m k (JMap x))
          | Some _ => None end). rewrite MG. by destruct j. }
      assert (Ik : I [k]) by (by apply (HI [k] k2 p)).
      rewrite SA. clear SA. inversion Tk as [I0 v0 j0 R0 L0|I0 n0 ls0 vs0 m0 E0 T0 N0 W0]; subst.
      * assert (X : match w with HRef n => h_set (k2 :: p) v n h | _ => (h, Err) end = (h, Err)).
        { destruct w as [| | | | |n]; try done. assert (Y : exists c, h !! n = Some (CList c)).
          { destruct j as [| | | | |l0|m0]; try done; [|by apply (L0 Ik) in R0 || by destruct (L0 Ik m0)]. rewrite reads_list in R0. destruct R0 as (n' & vs' & [= <-] & _ & H & _). by exists vs'. }
          destruct Y as [c Y]. cbn. by rewrite Y. }
        replace (match w with HRef n => h_set (k2 :: p) v n h | _ => (h, Err) end) with (h, @Err unit). cbn.
        destruct j as [| | | | |l0|m0]; try (by split_and!). by destruct (L0 Ik m0).
      * destruct (IH (fun p => I (k :: p)) n0 ls0 m0 h v jv) as (L' & F' & M'); [|done| |done|done| |done|].
        -- by exists vs0.
        -- intros x Hx. apply Own. right. apply S. left. rewrite elem_of_cons. done.
        -- intros p1 x q Hq Hp1. apply (HI (k :: p1) x q); [by rewrite Hq|done].
        -- split_and!; [done| |].
           ++ intros i c H1 H2. apply F'; intros H3; apply H2, S; left; rewrite elem_of_cons; tauto.
           ++ destruct (h_set (k2 :: p) v n0 h) as [h' x]. cbn [fst snd] in *. destruct (set_at (k2 :: p) jv m0) as [m2|]; cbn in M' |- *; [|done].
              destruct x as [[]| |]; [|done..]. destruct M' as (l2 & (vs2 & E2 & T2 & N2 & W2) & S2).
              destruct (U h' (n0 :: l2) (JMap m2)) as (l3 & T3 & S3).
              ** intros n c Hn. apply F'; intros H.
                 --- subst n. destruct Hn as [Hn|Hn]; [apply (Own n0); [right; apply S; left; by left|done]|]. apply (Nk n0); [by left|done].
                 --- destruct Hn as [Hn|Hn]; [apply (Own n); [right; apply S; left; by right|done]|]. apply (Nk n); [by right|done].
              ** by eapply t_node.
              ** intros n [->|H]%elem_of_cons; [apply Nk; by left|]. destruct (S2 n H) as [H2|H2]; [apply Nk; by right|]. intros H3.
                 assert (n < length h); [|lia]. eapply trees_bound; [exact T|]. apply S. by right.
              ** assert (S4 : forall n, n ∈ l3 -> n ∈ l \/ length h <= n < length h').
                 { intros n H. destruct (S3 n H) as [[->|H1]%elem_of_cons|H1]; [left; apply S; left; by left| |left; apply S; by right].
                   destruct (S2 n H1); [left; apply S; left; by right|by right]. }
                 exists l3. split; [|done]. exists vs. split_and!; [|done| |by apply ksorted_set].
                 --- apply F'; [| |done]; intros H; apply N, S; left; rewrite elem_of_cons; [by left|by right].
                 --- intros H. destruct (S4 r H) as [?|?]; [done|lia].
    + set (h1 := <[r:=CMap (kset vs k (HRef (length h)))]> h ++ [CMap []]).
      assert (Ln : length h1 = S (length h)). { unfold h1. rewrite app_length, insert_length. cbn. lia. }
      assert (F1 : forall i c, i <> r -> h !! i = Some c -> h1 !! i = Some c).
      { intros i c H1 H2. unfold h1. rewrite lookup_app_l; [|rewrite insert_length; by eapply lookup_lt_Some]. by rewrite list_lookup_insert_ne. }
      assert (E1 : h1 !! length h = Some (CMap [])). { unfold h1. rewrite lookup_app_r; rewrite insert_length; [|done]. by rewrite Nat.sub_diag. }
      assert (Er : h1 !! r = Some (CMap (kset vs k (HRef (length h))))). { unfold h1. rewrite lookup_app_l; [|by rewrite insert_length]. by apply list_lookup_insert. }
      destruct (IH (fun p => I (k :: p)) (length h) [] [] h1 v jv) as (L' & F' & M'); [| | |done| | |done|].
      * exists []. split_and!; [done|constructor|by apply not_elem_of_nil|constructor].
      * intros n Hn. apply B in Hn. lia.
      * intros x [->|H]; [|by apply elem_of_nil in H]. intros H. apply B in H. lia.
      * eapply reads_mono; [| |exact R]; [done|]. intros n c Hn. apply F1. intros ->. by apply (Own r); [left|].
      * intros p1 x q Hq Hp1. apply (HI (k :: p1) x q); [by rewrite Hq|done].
      * assert (SA : set_at (k :: k2 :: p) jv m = (x ← set_at (k2 :: p) jv []; Some (mset m k (JMap x)))).
        { change (set_at (k :: k2 :: p) jv m) with (match mget m k with
          | None => x ← set_at (k2 :: p) jv []; Some (mset m k (JMap x))
          | Some (JMap m2) => x ← set_at (k2 :: p) jv m2; Some (mset m k (JMap x))
          | Some _ => None end). by rewrite MG. }
        rewrite SA. clear SA. destruct (h_set (k2 :: p) v (length h) h1) as [h' x]. cbn [fst snd] in *.
        assert (F2 : forall i c, i <> r -> h !! i = Some c -> h' !! i = Some c).
        { intros i c H1 H2. apply F'; [|apply not_elem_of_nil|by apply F1]. apply lookup_lt_Some in H2. lia. }
        split_and!; [lia|intros i c H1 _; by apply F2|].
        destruct (set_at (k2 :: p) jv []) as [m2|]; cbn in M' |- *; [|done]. destruct x as [[]| |]; [|done..]. destruct M' as (l2 & (vs2 & E2 & T2 & N2 & W2) & S2).
        assert (S3 : forall n, n ∈ l2 -> length h <= n < length h'). { intros n H. destruct (S2 n H) as [H1|H1]; [by apply elem_of_nil in H1|lia]. }
        destruct (trees_set D h' I l vs m k (length h :: l2) (HRef (length h)) (JMap m2)) as (l' & T' & S').
        -- eapply trees_frame; [| |exact T]; [done|]. intros n c Hn. apply F2. intros ->. destruct Hn; [|done]. by apply (Own r); [left|].
        -- by eapply t_node.
        -- intros n Hn H. apply (trees_bound _ _ _ _ _ _ _ T) in H. apply elem_of_cons in Hn as [->|Hn]; [lia|]. apply S3 in Hn. lia.
        -- assert (S4 : forall n, n ∈ l' -> n ∈ l \/ length h <= n < length h').
           { intros n H. destruct (S' n H) as [?|[->|H1]%elem_of_cons]; [by left|right; lia|right; by apply S3]. }
           exists l'. split; [|done]. exists (kset vs k (HRef (length h))). split_and!; [|done| |by apply ksorted_set].
           ++ apply F'; [lia|apply not_elem_of_nil|done].
           ++ intros H. destruct (S4 r H); [done|lia].
Qed.
