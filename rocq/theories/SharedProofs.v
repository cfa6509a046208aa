(** Lemmas about operators that share the view cache. *)
From Verif Require Import SharedModel SharedSpec ViewSpec ViewProofs ViewProofs2.

(** The list without one occurrence. *)
Lemma last_take {A} (l : list A) z : last l = Some z -> l = take (length l - 1) l ++ [z].
Proof.
  intros H. destruct (last_Some l z) as [E _]. destruct (E H) as (l' & ->). rewrite app_length. cbn [length]. replace (length l' + 1 - 1)%nat with (length l') by lia.
  by rewrite take_app.
Qed.
Lemma swap_perm j l : j ∈ l -> Permutation l (j :: swap_remove j l).
Proof.
  intros H. unfold swap_remove. destruct (list_find (fun k => k = j) l) as [[i y]|] eqn:F.
  2:{ exfalso. apply list_find_None in F. rewrite Forall_forall in F. by apply (F j H). }
  apply list_find_Some in F as (Hi & -> & _). destruct (last l) as [z|] eqn:L.
  2:{ apply last_None in L. by subst l. }
  pose proof (last_take l z L) as E. pose proof (lookup_lt_Some _ _ _ Hi) as B.
  set (l' := take (length l - 1) l) in *. assert (Ll : length l' = (length l - 1)%nat) by (unfold l'; rewrite take_length; lia).
  assert (T : take (length l - 1) (<[i := z]> l) = <[i := z]> l').
  { unfold l'. destruct (decide (i < length l - 1)%nat) as [Lt|Ge].
    - by rewrite take_insert_lt.
    - rewrite take_insert by lia. rewrite list_insert_ge; [done|]. rewrite take_length. lia. }
  rewrite T. rewrite E at 1. destruct (decide (i < length l')%nat) as [Lt|Ge].
  - assert (Hi' : l' !! i = Some j). { rewrite E in Hi. by rewrite lookup_app_l in Hi. }
    rewrite <- (take_drop_middle l' i j Hi') at 1. rewrite insert_take_drop by done.
    generalize (take i l') (drop (S i) l'). intros u v. transitivity (j :: (u ++ v) ++ [z]).
    + apply (Permutation_app_tail [z] (l := u ++ j :: v) (l' := j :: u ++ v)). symmetry. apply Permutation_middle.
    + apply perm_skip. transitivity (z :: u ++ v); [apply (Permutation_app_comm (u ++ v) [z])|apply Permutation_middle].
  - assert (i = length l') as -> by lia. rewrite E in Hi. rewrite lookup_app_r in Hi by lia. rewrite Nat.sub_diag in Hi. injection Hi as ->.
    rewrite list_insert_ge by lia. by rewrite Permutation_app_comm.
Qed.
Lemma swap_other j k l : k <> j -> k ∈ swap_remove j l <-> k ∈ l.
Proof.
  intros N. destruct (decide (j ∈ l)) as [H|H].
  - rewrite (swap_perm j l H) at 2. rewrite elem_of_cons. naive_solver.
  - unfold swap_remove. destruct (list_find _ l) as [[i y]|] eqn:F; [|done]. apply list_find_Some in F as (Hi & -> & _). exfalso. apply H. by eapply elem_of_list_lookup_2.
Qed.
Lemma swap_nodup j l : NoDup l -> NoDup (swap_remove j l) /\ j ∉ swap_remove j l.
Proof.
  intros N. destruct (decide (j ∈ l)) as [H|H].
  - rewrite (swap_perm j l H) in N. apply NoDup_cons in N. naive_solver.
  - unfold swap_remove. destruct (list_find _ l) as [[i y]|] eqn:F; [|done]. apply list_find_Some in F as (Hi & -> & _). exfalso. apply H. by eapply elem_of_list_lookup_2.
Qed.

Section shared.
Variable hash : string -> string.
Variable lister : store -> list jobj.
Notation sstep := (sstep hash lister).
Notation srun := (srun hash lister).

Definition del_of (s : shared) (x : gvk) : list nat := default [] (s_del s !! x).
(** Informers are made once and belong to one place. *)
Record inv (s : shared) : Prop := {
  i_own : forall x j, s_own s !! x = Some j -> (j < s_infs s)%nat;
  i_own_inj : forall x y j, s_own s !! x = Some j -> s_own s !! y = Some j -> x = y;
  i_ops : forall q j, s_ops s !! q = Some j -> (j < s_infs s)%nat;
  i_ops_inj : forall q r j, s_ops s !! q = Some j -> s_ops s !! r = Some j -> q = r;
  i_apart : forall x q j, s_own s !! x = Some j -> s_ops s !! q <> Some j;
  i_nodup : forall x, NoDup (del_of s x);
  i_del : forall x j, j ∈ del_of s x -> exists p, s_ops s !! (p, x) = Some j;
  i_on : forall i j, s_on s !! i = Some j -> (i < s_handlers s)%nat /\ (j < s_infs s)%nat }.

Lemma inv0 : inv shared0.
Proof. split; cbn; try done; intros; try by rewrite lookup_empty in *. - constructor. - unfold del_of in *. cbn in *. by apply elem_of_nil in H. Qed.

(** The handler is connected to the events of a kind. *)
Definition linked (s : shared) (i : nat) (x : gvk) : Prop := exists j, s_on s !! i = Some j /\ (s_own s !! x = Some j \/ j ∈ del_of s x).

Lemma linked_one s i x y : inv s -> linked s i x -> linked s i y -> x = y.
Proof.
  intros I (j & A & B) (k & C & D). rewrite A in C. injection C as <-.
  destruct B as [B|B], D as [D|D].
  - by eapply i_own_inj.
  - apply (i_del s I) in D as (p & D). exfalso. by eapply (i_apart s I).
  - apply (i_del s I) in B as (p & B). exfalso. by eapply (i_apart s I).
  - apply (i_del s I) in D as (p & D). apply (i_del s I) in B as (q & B). pose proof (i_ops_inj s I _ _ _ B D) as E. by injection E.
Qed.

(** *** Making informers *)
Lemma own_inv s x s' j : own_informer s x = (s', j) -> inv s -> inv s' /\ s_own s' !! x = Some j /\ s_cache s' = s_cache s /\ s_handlers s' = s_handlers s /\
  s_log s' = s_log s /\ s_on s' = s_on s /\ s_ops s' = s_ops s /\ s_del s' = s_del s /\ (forall y k, s_own s !! y = Some k -> s_own s' !! y = Some k) /\
  (forall y k, s_own s' !! y = Some k -> s_own s !! y = Some k \/ (y = x /\ k = s_infs s)) /\ (s_infs s <= s_infs s')%nat.
Proof.
  unfold own_informer. destruct (s_own s !! x) as [k|] eqn:E; intros H I; injection H as <- <-.
  - split_and!; try done. intros. by left.
  - assert (O : forall y k, <[x := s_infs s]> (s_own s) !! y = Some k -> s_own s !! y = Some k \/ (y = x /\ k = s_infs s)).
    { intros y k. destruct (decide (x = y)) as [<-|N]; [rewrite lookup_insert; intros [= <-]; by right|rewrite lookup_insert_ne by done; by left]. }
    split_and!; cbn; try done; [|by rewrite lookup_insert| |lia].
    + destruct I as [I1 I2 I3 I4 I5 I6 I7 I8]. split; cbn; try done.
      * intros y k Hk. apply O in Hk as [Hk|[_ ->]]; [|lia]. apply I1 in Hk. lia.
      * intros y z k Hy Hz. apply O in Hy as [Hy|[-> ->]], Hz as [Hz|[-> Ek]]; [by eapply I2| |apply I1 in Hz; lia|done]. subst k. apply I1 in Hy. lia.
      * intros q k Hk. apply I3 in Hk. lia.
      * intros y q k Hy Hk. apply O in Hy as [Hy|[-> ->]]; [by eapply I5|]. apply I3 in Hk. lia.
      * intros i k Hk. apply I8 in Hk. lia.
    + intros y k Hy. rewrite lookup_insert_ne; [done|]. intros <-. by rewrite E in Hy.
Qed.
Lemma op_inv s p x s' j : op_informer s p x = (s', j) -> inv s -> inv s' /\ s_ops s' !! (p, x) = Some j /\ s_cache s' = s_cache s /\ s_handlers s' = s_handlers s /\
  s_log s' = s_log s /\ s_on s' = s_on s /\ s_own s' = s_own s /\ (forall y k, k ∈ del_of s y -> k ∈ del_of s' y) /\
  (forall y k, k ∈ del_of s' y -> k ∈ del_of s y \/ (y = x /\ k = s_infs s)) /\ (s_ops s !! (p, x) = None -> j ∈ del_of s' x) /\
  (forall q, q <> (p, x) -> s_ops s' !! q = s_ops s !! q) /\ (s_ops s !! (p, x) = Some j -> s' = s) /\ (s_infs s <= s_infs s')%nat.
Proof.
  unfold op_informer. destruct (s_ops s !! (p, x)) as [k|] eqn:E; intros H I; injection H as <- <-.
  - split_and!; try done. intros. by left.
  - assert (O : forall q k, <[(p, x) := s_infs s]> (s_ops s) !! q = Some k -> s_ops s !! q = Some k \/ (q = (p, x) /\ k = s_infs s)).
    { intros q k. destruct (decide ((p, x) = q)) as [<-|N]; [rewrite lookup_insert; intros [= <-]; by right|rewrite lookup_insert_ne by done; by left]. }
    set (s' := Shared _ _ _ _ _ _ _ _).
    assert (D : forall y, del_of s' y = if decide (x = y) then del_of s x ++ [s_infs s] else del_of s y).
    { intros y. unfold del_of, s'. cbn. case_decide as N; [subst y; by rewrite lookup_insert|by rewrite lookup_insert_ne]. }
    destruct I as [I1 I2 I3 I4 I5 I6 I7 I8].
    assert (New : forall y, s_infs s ∉ del_of s y). { intros y Hy. apply I7 in Hy as (q & Hq). apply I3 in Hq. lia. }
    split_and!; cbn; try done; [|by rewrite lookup_insert| | | | |lia].
    + split; cbn; try done.
      * intros y k Hk. apply I1 in Hk. lia.
      * intros q k Hk. apply O in Hk as [Hk|[_ ->]]; [|lia]. apply I3 in Hk. lia.
      * intros q r k Hq Hr. apply O in Hq as [Hq|[-> ->]], Hr as [Hr|[-> Ek]]; [by eapply I4| |apply I3 in Hr; lia|done]. subst k. apply I3 in Hq. lia.
      * intros y q k Hy Hk. apply O in Hk as [Hk|[-> ->]]; [by eapply I5|]. apply I1 in Hy. lia.
      * intros y. rewrite D. case_decide; [|done]. apply NoDup_app. split_and!; [done| |apply NoDup_singleton]. intros k Hk ->%elem_of_list_singleton. by eapply New.
      * intros y k. rewrite D. case_decide as N; [subst y; rewrite elem_of_app, elem_of_list_singleton; intros [H| ->]|intros H].
        -- apply I7 in H as (q & Hq). exists q. rewrite lookup_insert_ne; [done|]. intros Eq. rewrite Eq in E. by rewrite E in Hq.
        -- exists p. by rewrite lookup_insert.
        -- apply I7 in H as (q & Hq). exists q. rewrite lookup_insert_ne; [done|]. intros Eq. rewrite Eq in E. by rewrite E in Hq.
      * intros i k Hk. apply I8 in Hk. lia.
    + intros y k Hk. rewrite D. case_decide as N; [subst y; apply elem_of_app; by left|done].
    + intros y k. rewrite D. case_decide as N; [subst y; rewrite elem_of_app, elem_of_list_singleton; intros [H| ->]; [by left|by right]|by left].
    + intros _. rewrite D. rewrite decide_True by done. apply elem_of_app. right. by apply elem_of_list_singleton.
    + intros q N. by rewrite lookup_insert_ne.
Qed.

Lemma add_inv s j x : inv s -> (j < s_infs s)%nat -> inv (add_handler lister s j x).
Proof.
  intros [I1 I2 I3 I4 I5 I6 I7 I8] Hj. split; cbn; try done. intros i k. destruct (decide (s_handlers s = i)) as [<-|N]; [rewrite lookup_insert; intros [= <-]; lia|].
  rewrite lookup_insert_ne by done. intros H. apply I8 in H. lia.
Qed.

(** *** Events *)
Lemma fire_log s e i x : inv s -> linked s i x ->
  s_log (fire s e) i = s_log s i ++ (if decide (e.1 = x) then [copied e.2] else []).
Proof.
  intros I L. unfold fire. destruct (own_informer s e.1) as [s1 j] eqn:Eo. destruct (own_inv _ _ _ _ Eo I) as (I1 & Hj & _ & _ & Hl & Ho & Hp & Hd & Hm & Hn & _).
  cbn [s_log]. rewrite Hl. f_equal.
  assert (G : forall js, NoDup js ->
    concat (map (fun k => if decide (s_on s1 !! i = Some k) then [copied e.2] else []) js) =
    match s_on s1 !! i with Some k => if decide (k ∈ js) then [copied e.2] else [] | None => [] end).
  { intros js N. destruct (s_on s1 !! i) as [k|].
    - induction N as [|k' js Nk N IH]; [done|]. cbn [map concat]. rewrite IH. destruct (decide (Some k = Some k')) as [Ek|Ek].
      + injection Ek as <-. rewrite (decide_True (P := k ∈ k :: js)) by left. by rewrite decide_False.
      + cbn [app]. destruct (decide (k ∈ js)) as [Hk|Hk]; [by rewrite decide_True by by right|]. rewrite decide_False; [done|]. intros H. apply elem_of_cons in H as [->|H]; done.
    - clear N. induction js as [|k js IH]; [done|]. cbn [map concat]. rewrite IH. by rewrite decide_False. }
  rewrite G.
  2:{ apply NoDup_cons. split; [|apply (i_nodup s1 I1)]. intros Hin. apply (i_del s1 I1) in Hin as (p & Hq). by eapply (i_apart s1 I1). }
  assert (L1 : linked s1 i x). { destruct L as (k & A & B). exists k. rewrite Ho. split; [done|]. unfold del_of. rewrite Hd. destruct B as [B|B]; [left; by apply Hm|by right]. }
  destruct L1 as (k & A & B). rewrite A. destruct (decide (e.1 = x)) as [E|N].
  - rewrite decide_True; [done|]. rewrite E in *. destruct B as [B|B]; [rewrite B in Hj; injection Hj as ->; by left|by right].
  - rewrite decide_False; [done|]. intros Hk. apply N. eapply (linked_one s1 i); [done| |by exists k]. exists k. split; [done|]. apply elem_of_cons in Hk as [->|Hk]; [by left|by right].
Qed.
Lemma fire_keeps s e : inv s -> inv (fire s e) /\ s_cache (fire s e) = s_cache s /\ s_handlers (fire s e) = s_handlers s /\ s_on (fire s e) = s_on s /\ s_ops (fire s e) = s_ops s /\
  s_del (fire s e) = s_del s /\ (forall y k, s_own s !! y = Some k -> s_own (fire s e) !! y = Some k).
Proof.
  intros I. unfold fire. destruct (own_informer s e.1) as [s1 j] eqn:Eo. destruct (own_inv _ _ _ _ Eo I) as (I1 & Hj & Hc & Hh & Hl & Ho & Hp & Hd & Hm & _). cbn.
  split_and!; [|done..]. destruct I1 as [J1 J2 J3 J4 J5 J6 J7 J8]. by split.
Qed.
Lemma fires s es : inv s -> let s' := foldl fire s es in inv s' /\ s_cache s' = s_cache s /\ s_handlers s' = s_handlers s /\ s_on s' = s_on s /\ s_ops s' = s_ops s /\
  s_del s' = s_del s /\ (forall y k, s_own s !! y = Some k -> s_own s' !! y = Some k) /\
  forall i x, linked s i x -> s_log s' i = s_log s i ++ map (fun e => copied e.2) (List.filter (fun e => bool_decide (e.1 = x)) es).
Proof.
  revert s. induction es as [|e es IH]; intros s I; cbn [foldl]; cbv zeta.
  - split_and!; try done. intros. cbn. by rewrite app_nil_r.
  - destruct (fire_keeps s e I) as (I1 & A1 & A2 & A3 & A4 & A5 & A6). destruct (IH _ I1) as (I2 & B1 & B2 & B3 & B4 & B5 & B6 & B7). cbv zeta in *.
    split_and!; [done|congruence..| |].
    + intros y k H. by apply B6, A6.
    + intros i x L. rewrite (B7 i x).
      2:{ destruct L as (j & L1 & L2). exists j. rewrite A3. split; [done|]. unfold del_of. rewrite A5. destruct L2 as [L2|L2]; [left; by apply A6|by right]. }
      rewrite (fire_log s e i x I L). rewrite <- app_assoc. f_equal. cbn [List.filter]. destruct (decide (e.1 = x)) as [E|N].
      * by rewrite bool_decide_true.
      * by rewrite bool_decide_false.
Qed.
(** *** Steps *)
Lemma del_alter s y f x c on : del_of (Shared c (s_own s) (alter f y (s_del s)) (s_ops s) on (s_infs s) (s_handlers s) (s_log s)) x = if decide (y = x) then match s_del s !! x with Some l => f l | None => [] end else del_of s x.
Proof.
  unfold del_of. cbn. destruct (decide (y = x)) as [<-|N]; [rewrite lookup_alter|by rewrite lookup_alter_ne]. by destruct (s_del s !! y).
Qed.
Definition del_without (s : shared) (p : nat) : gmap gvk (list nat) :=
  map_imap (fun x l => Some (match s_ops s !! (p, x) with Some j => swap_remove j l | None => l end)) (s_del s).
Lemma del_stop s p x : default [] (del_without s p !! x) = match s_ops s !! (p, x) with Some j => swap_remove j (del_of s x) | None => del_of s x end.
Proof.
  unfold del_without, del_of. rewrite map_lookup_imap. destruct (s_del s !! x) as [l|]; cbn; [done|]. by destruct (s_ops s !! (p, x)).
Qed.

Lemma step_inv s a : inv s -> inv (sstep s a).
Proof.
  intros I. destruct a as [o|p x|x|i|p x|x|p]; cbn [SharedModel.sstep].
  - destruct (vstep hash lister (s_cache s) o) as [[c es] r]. apply fires. destruct I as [I1 I2 I3 I4 I5 I6 I7 I8]. by split.
  - destruct (is_view_kind x); [|done]. destruct (op_informer s p x) as [s1 j] eqn:E. destruct (op_inv _ _ _ _ _ E I) as (I1 & H & _). apply add_inv; [done|]. by eapply i_ops.
  - destruct (is_view_kind x); [|done]. destruct (own_informer s x) as [s1 j] eqn:E. destruct (own_inv _ _ _ _ E I) as (I1 & H & _). apply add_inv; [done|]. by eapply i_own.
  - destruct I as [I1 I2 I3 I4 I5 I6 I7 I8]. split; cbn; try done. intros k j H. apply lookup_delete_Some in H as [_ H]. by apply I8 in H.
  - destruct (s_ops s !! (p, x)) as [j|] eqn:E; [|done]. set (s' := Shared _ _ _ _ _ _ _ _).
    assert (D : forall y, del_of s' y = if decide (x = y) then swap_remove j (del_of s y) else del_of s y).
    { intros y. unfold s', del_of. cbn. destruct (decide (x = y)) as [<-|N]; [rewrite lookup_alter|by rewrite lookup_alter_ne]. by destruct (s_del s !! x). }
    destruct I as [I1 I2 I3 I4 I5 I6 I7 I8]. split; cbn; try done.
    + intros q k H. apply lookup_delete_Some in H as [_ H]. by eapply I3.
    + intros q r k H1 H2. apply lookup_delete_Some in H1 as [_ H1]. apply lookup_delete_Some in H2 as [_ H2]. by eapply I4.
    + intros y q k H1 H2. apply lookup_delete_Some in H2 as [_ H2]. by eapply I5.
    + intros y. rewrite D. case_decide; [by apply swap_nodup|done].
    + intros y k. rewrite D. case_decide as N.
      * subst y. intros H. destruct (decide (k = j)) as [->|Nk]; [exfalso; by apply (swap_nodup j (del_of s x) (I6 x))|]. apply swap_other in H; [|done].
        apply I7 in H as (q & H). exists q. rewrite lookup_delete_ne; [done|]. intros Eq. rewrite Eq in E. rewrite E in H. by injection H as ->.
      * intros H. apply I7 in H as (q & H). exists q. rewrite lookup_delete_ne; [done|]. intros [= _ Eq]. done.
  - destruct I as [I1 I2 I3 I4 I5 I6 I7 I8]. split; cbn; try done.
    + intros y k H. apply lookup_delete_Some in H as [_ H]. by eapply I1.
    + intros y z k H1 H2. apply lookup_delete_Some in H1 as [_ H1]. apply lookup_delete_Some in H2 as [_ H2]. by eapply I2.
    + intros y q k H1. apply lookup_delete_Some in H1 as [_ H1]. by eapply I5.
  - fold (del_without s p). set (s' := Shared _ _ _ _ _ _ _ _).
    assert (D : forall y, del_of s' y = match s_ops s !! (p, y) with Some j => swap_remove j (del_of s y) | None => del_of s y end) by (intros y; apply del_stop).
    destruct I as [I1 I2 I3 I4 I5 I6 I7 I8]. split; cbn; try done.
    + intros y. rewrite D. destruct (s_ops s !! (p, y)); [by apply swap_nodup|done].
    + intros y k. rewrite D. destruct (s_ops s !! (p, y)) as [j|] eqn:E; [|apply I7]. intros H.
      destruct (decide (k = j)) as [->|Nk]; [exfalso; by apply (swap_nodup j (del_of s y) (I6 y))|]. apply swap_other in H; [|done]. by apply I7.
Qed.
Lemma run_inv s l : inv s -> inv (srun s l).
Proof. revert s. induction l as [|a l IH]; intros s I; [done|]. apply IH. by apply step_inv. Qed.

(** Handler [i] hangs on the informer of operator [p] for kind [x]. *)
Definition held (s : shared) (p : nat) (x : gvk) (i : nat) : Prop := exists j, s_on s !! i = Some j /\ s_ops s !! (p, x) = Some j /\ j ∈ del_of s x.
Definition held_own (s : shared) (x : gvk) (i : nat) : Prop := exists j, s_on s !! i = Some j /\ s_own s !! x = Some j.
Lemma held_linked s p x i : held s p x i -> linked s i x.
Proof. intros (j & A & _ & B). exists j. eauto. Qed.
Lemma held_own_linked s x i : held_own s x i -> linked s i x.
Proof. intros (j & A & B). exists j. eauto. Qed.

(** What one step brings to a handler. *)
Definition gain (s : shared) (x : gvk) (a : sact) : list wevent :=
  match a with
  | SDo o => map (fun e => copied e.2) (List.filter (fun e => bool_decide (e.1 = x)) (vstep hash lister (s_cache s) o).1.2)
  | _ => []
  end.
Lemma step_log s i x a : inv s -> linked s i x -> s_log (sstep s a) i = s_log s i ++ gain s x a.
Proof.
  intros I L. assert (Hi : (i < s_handlers s)%nat). { destruct L as (j & A & _). by apply (i_on s I) in A as [? _]. }
  destruct a as [o|p y|y|k|p y|y|p]; cbn [SharedModel.sstep gain]; rewrite ?app_nil_r; try done.
  - destruct (vstep hash lister (s_cache s) o) as [[c es] r]. cbn [fst snd]. set (s1 := Shared _ _ _ _ _ _ _ _).
    assert (I1 : inv s1). { destruct I as [I1 I2 I3 I4 I5 I6 I7 I8]. by split. }
    destruct (fires s1 es I1) as (_ & _ & _ & _ & _ & _ & _ & F). by rewrite (F i x L).
  - destruct (is_view_kind y); [|done]. destruct (op_informer s p y) as [s1 j] eqn:E. destruct (op_inv _ _ _ _ _ E I) as (_ & _ & _ & Hh & Hl & _).
    cbn. rewrite Hh, Hl. rewrite decide_False by lia. done.
  - destruct (is_view_kind y); [|done]. destruct (own_informer s y) as [s1 j] eqn:E. destruct (own_inv _ _ _ _ E I) as (_ & _ & _ & Hh & Hl & _).
    cbn. rewrite Hh, Hl. rewrite decide_False by lia. done.
  - by destruct (s_ops s !! (p, y)).
Qed.
(** The part of a step that is not about handlers. *)
Lemma step_base s a : inv s -> s_cache (sstep s a) = match a with SDo o => (vstep hash lister (s_cache s) o).1.1 | _ => s_cache s end /\
  s_handlers (sstep s a) = match a with SListen _ x | SWatch x => if is_view_kind x then S (s_handlers s) else s_handlers s | _ => s_handlers s end.
Proof.
  intros I. destruct a as [o|p y|y|k|p y|y|p]; cbn [SharedModel.sstep]; try done.
  - destruct (vstep hash lister (s_cache s) o) as [[c es] r]. cbn [fst snd]. set (s1 := Shared _ _ _ _ _ _ _ _).
    assert (I1 : inv s1). { destruct I as [I1 I2 I3 I4 I5 I6 I7 I8]. by split. } by destruct (fires s1 es I1) as (_ & -> & -> & _).
  - destruct (is_view_kind y); [|done]. destruct (op_informer s p y) as [s1 j] eqn:E. destruct (op_inv _ _ _ _ _ E I) as (_ & _ & Hc & Hh & _). cbn. by rewrite Hc, Hh.
  - destruct (is_view_kind y); [|done]. destruct (own_informer s y) as [s1 j] eqn:E. destruct (own_inv _ _ _ _ E I) as (_ & _ & Hc & Hh & _). cbn. by rewrite Hc, Hh.
  - by destruct (s_ops s !! (p, y)).
Qed.
Lemma step_on s i j a : inv s -> s_on s !! i = Some j -> a <> SLeave i -> s_on (sstep s a) !! i = Some j.
Proof.
  intros I H N. assert (Hi : (i < s_handlers s)%nat) by by apply (i_on s I) in H as [? _].
  destruct a as [o|p y|y|k|p y|y|p]; cbn [SharedModel.sstep]; try done.
  - destruct (vstep hash lister (s_cache s) o) as [[c es] r]. set (s1 := Shared _ _ _ _ _ _ _ _).
    assert (I1 : inv s1). { destruct I as [I1 I2 I3 I4 I5 I6 I7 I8]. by split. } by destruct (fires s1 es I1) as (_ & _ & _ & -> & _).
  - destruct (is_view_kind y); [|done]. destruct (op_informer s p y) as [s1 k] eqn:E. destruct (op_inv _ _ _ _ _ E I) as (_ & _ & _ & Hh & _ & Ho & _).
    cbn. rewrite Hh, Ho. by rewrite lookup_insert_ne by lia.
  - destruct (is_view_kind y); [|done]. destruct (own_informer s y) as [s1 k] eqn:E. destruct (own_inv _ _ _ _ E I) as (_ & _ & _ & Hh & _ & Ho & _).
    cbn. rewrite Hh, Ho. by rewrite lookup_insert_ne by lia.
  - cbn. rewrite lookup_delete_ne; [done|]. intros ->. done.
  - by destruct (s_ops s !! (p, y)).
Qed.
Lemma held_step s p x i a : inv s -> held s p x i -> a <> SStop p -> a <> SRemove p x -> a <> SLeave i -> held (sstep s a) p x i.
Proof.
  intros I (j & A & B & C) N1 N2 N3. exists j. split; [by apply step_on|].
  destruct a as [o|q y|y|k|q y|y|q]; cbn [SharedModel.sstep]; try done.
  - destruct (vstep hash lister (s_cache s) o) as [[c es] r]. set (s1 := Shared _ _ _ _ _ _ _ _).
    assert (I1 : inv s1). { destruct I as [I1 I2 I3 I4 I5 I6 I7 I8]. by split. } destruct (fires s1 es I1) as (_ & _ & _ & _ & H1 & H2 & _). unfold del_of. by rewrite H1, H2.
  - destruct (is_view_kind y); [|done]. destruct (op_informer s q y) as [s1 k] eqn:E. destruct (op_inv _ _ _ _ _ E I) as (_ & H1 & _ & _ & _ & _ & _ & H2 & _ & _ & H3 & H4 & _).
    unfold del_of in *. cbn. split; [|by apply H2]. destruct (decide ((p, x) = (q, y))) as [Eq|Nq]; [|by rewrite H3].
    injection Eq as -> ->. rewrite H4; [done|]. unfold op_informer in E. rewrite B in E. injection E as _ <-. done.
  - destruct (is_view_kind y); [|done]. destruct (own_informer s y) as [s1 k] eqn:E. destruct (own_inv _ _ _ _ E I) as (_ & _ & _ & _ & _ & _ & H1 & H2 & _). unfold del_of. cbn. by rewrite H1, H2.
  - destruct (s_ops s !! (q, y)) as [k|] eqn:E; [|done]. assert (Nq : (q, y) <> (p, x)) by (intros [= -> ->]; done).
    assert (Nk : j <> k). { intros ->. apply Nq. by apply (i_ops_inj s I _ _ k). }
    unfold del_of in *. cbn. split; [by rewrite lookup_delete_ne|]. destruct (decide (y = x)) as [->|Ny]; [rewrite lookup_alter|by rewrite lookup_alter_ne].
    destruct (s_del s !! x) as [l|]; [|done]. cbn in *. by apply swap_other.
  - fold (del_without s q). unfold del_of at 1. cbn [s_ops s_del]. rewrite del_stop. split; [done|]. destruct (s_ops s !! (q, x)) as [k|] eqn:E; [|done].
    apply swap_other; [|done]. intros ->. pose proof (i_ops_inj s I _ _ _ E B) as Eq. injection Eq as ->. done.
Qed.
Lemma held_own_step s x i a : inv s -> held_own s x i -> a <> SRemoveOwn x -> a <> SLeave i -> held_own (sstep s a) x i.
Proof.
  intros I (j & A & B) N1 N2. exists j. split; [by apply step_on|].
  destruct a as [o|q y|y|k|q y|y|q]; cbn [SharedModel.sstep]; try done.
  - destruct (vstep hash lister (s_cache s) o) as [[c es] r]. set (s1 := Shared _ _ _ _ _ _ _ _).
    assert (I1 : inv s1). { destruct I as [I1 I2 I3 I4 I5 I6 I7 I8]. by split. } destruct (fires s1 es I1) as (_ & _ & _ & _ & _ & _ & H & _). by apply H.
  - destruct (is_view_kind y); [|done]. destruct (op_informer s q y) as [s1 k] eqn:E. destruct (op_inv _ _ _ _ _ E I) as (_ & _ & _ & _ & _ & _ & H & _). cbn. by rewrite H.
  - destruct (is_view_kind y); [|done]. destruct (own_informer s y) as [s1 k] eqn:E. destruct (own_inv _ _ _ _ E I) as (_ & _ & _ & _ & _ & _ & _ & _ & H & _). cbn. by apply H.
  - by destruct (s_ops s !! (q, y)).
  - cbn. rewrite lookup_delete_ne; [done|]. intros ->. done.
Qed.

(** *** The view cache without operators *)
Lemma dacts_cons a l : dacts (a :: l) = match direct a with Some b => b :: dacts l | None => dacts l end.
Proof. done. Qed.
Notation vrun := (vact_run hash lister).
Definition same_base (s : shared) (v : vsys) : Prop := s_cache s = vs_cache v /\ s_handlers s = vs_next v.
Lemma vrun_cons v a l : vrun v (match a with Some b => b :: l | None => l end) = vrun (match a with Some b => vact_step hash lister v b | None => v end) l.
Proof. by destruct a. Qed.
Lemma same_step s v a : inv s -> same_base s v -> same_base (sstep s a) (match direct a with Some b => vact_step hash lister v b | None => v end).
Proof.
  intros I [H1 H2]. destruct (step_base s a I) as [E1 E2]. destruct a as [o|q y|y|k|q y|y|q]; cbn [direct]; try by split; congruence.
  - unfold same_base. cbn [vact_step]. rewrite E1, E2, H1. destruct (vstep hash lister (vs_cache v) o) as [[c es] r]. done.
  - unfold same_base. rewrite E1, E2. cbn [vact_step]. destruct (is_view_kind y); [|done]. cbn. by rewrite H1, H2.
  - unfold same_base. rewrite E1, E2. cbn [vact_step]. destruct (is_view_kind y); [|done]. cbn. by rewrite H1, H2.
Qed.
Lemma same_run l : forall s v, inv s -> same_base s v -> same_base (srun s l) (vrun v (dacts l)).
Proof.
  induction l as [|a l IH]; intros s v I H; [done|]. rewrite dacts_cons.
  rewrite vrun_cons. apply IH; [by apply step_inv|]. by apply same_step.
Qed.
Lemma same_log_step s v i x a : inv s -> same_base s v -> linked s i x -> vs_handlers v !! i = Some x -> s_log s i = vs_log v i ->
  let v' := match direct a with Some b => vact_step hash lister v b | None => v end in
  vs_handlers v' !! i = Some x /\ s_log (sstep s a) i = vs_log v' i.
Proof.
  intros I [H1 H2] L Hv E v'. rewrite (step_log s i x a I L). assert (Hi : (i < s_handlers s)%nat). { destruct L as (j & A & _). by apply (i_on s I) in A as [? _]. }
  destruct a as [o|q y|y|k|q y|y|q]; subst v'; cbn [direct gain vact_step]; rewrite ?app_nil_r; try done.
  - rewrite H1. destruct (vstep hash lister (vs_cache v) o) as [[c es] r]. cbn. split; [done|]. unfold deliver. by rewrite Hv, E.
  - destruct (is_view_kind y); [|done]. cbn. rewrite lookup_insert_ne by lia. split; [done|]. rewrite decide_False by lia. done.
  - destruct (is_view_kind y); [|done]. cbn. rewrite lookup_insert_ne by lia. split; [done|]. rewrite decide_False by lia. done.
Qed.
Lemma same_log_op p x i l : forall s v, inv s -> same_base s v -> held s p x i -> vs_handlers v !! i = Some x -> s_log s i = vs_log v i -> keeps_op p x i l ->
  s_log (srun s l) i = vs_log (vrun v (dacts l)) i /\ held (srun s l) p x i.
Proof.
  induction l as [|a l IH]; intros s v I B L Hv E (K1 & K2 & K3); [done|].
  rewrite dacts_cons.
  rewrite vrun_cons. destruct (same_log_step s v i x a I B (held_linked _ _ _ _ L) Hv E) as [A1 A2].
  apply IH; [by apply step_inv|by apply same_step| |done|done|].
  - apply held_step; try done; intros ->; [apply K1|apply K2|apply K3]; by left.
  - split_and!; intros H; [apply K1|apply K2|apply K3]; by right.
Qed.
Lemma same_log_own x i l : forall s v, inv s -> same_base s v -> held_own s x i -> vs_handlers v !! i = Some x -> s_log s i = vs_log v i -> keeps_own x i l ->
  s_log (srun s l) i = vs_log (vrun v (dacts l)) i.
Proof.
  induction l as [|a l IH]; intros s v I B L Hv E (K1 & K2); [done|].
  rewrite dacts_cons.
  rewrite vrun_cons. destruct (same_log_step s v i x a I B (held_own_linked _ _ _ L) Hv E) as [A1 A2].
  apply IH; [by apply step_inv|by apply same_step| |done|done|].
  - apply held_own_step; try done; intros ->; [apply K1|apply K2]; by left.
  - split; intros H; [apply K1|apply K2]; by right.
Qed.
(** An operator that was never stopped has its informers registered. *)
Definition sound_op (p : nat) (s : shared) : Prop := forall x j, s_ops s !! (p, x) = Some j -> j ∈ del_of s x.
Lemma sound_step p s a : inv s -> sound_op p s -> a <> SStop p -> sound_op p (sstep s a).
Proof.
  intros I S N x j. destruct a as [o|q y|y|k|q y|y|q]; cbn [SharedModel.sstep]; try apply S.
  - destruct (vstep hash lister (s_cache s) o) as [[c es] r]. set (s1 := Shared _ _ _ _ _ _ _ _).
    assert (I1 : inv s1). { destruct I as [I1 I2 I3 I4 I5 I6 I7 I8]. by split. } destruct (fires s1 es I1) as (_ & _ & _ & _ & H1 & H2 & _). unfold del_of. rewrite H1, H2. apply S.
  - destruct (is_view_kind y); [|apply S]. destruct (op_informer s q y) as [s1 k] eqn:E. destruct (op_inv _ _ _ _ _ E I) as (_ & H1 & _ & _ & _ & _ & _ & H2 & _ & H5 & H3 & H4 & _).
    unfold del_of in *. cbn. destruct (decide ((p, x) = (q, y))) as [Eq|Nq].
    + injection Eq as <- <-. rewrite H1. intros [= <-]. destruct (s_ops s !! (p, x)) as [k'|] eqn:Ek; [|by apply H5].
      assert (k' = k) as -> by (unfold op_informer in E; rewrite Ek in E; by injection E). apply H2. by apply S.
    + rewrite H3 by done. intros H. apply H2. by apply S.
  - destruct (is_view_kind y); [|apply S]. destruct (own_informer s y) as [s1 k] eqn:E. destruct (own_inv _ _ _ _ E I) as (_ & _ & _ & _ & _ & _ & H1 & H2 & _). unfold del_of. cbn. rewrite H1, H2. apply S.
  - destruct (s_ops s !! (q, y)) as [k|] eqn:E; [|apply S]. unfold del_of. cbn. intros H. apply lookup_delete_Some in H as [Nq H].
    assert (Nk : j <> k). { intros ->. apply Nq. by apply (i_ops_inj s I _ _ k). }
    apply S in H. unfold del_of in H. destruct (decide (y = x)) as [->|Ny]; [rewrite lookup_alter|by rewrite lookup_alter_ne].
    destruct (s_del s !! x) as [l|]; [|done]. cbn in *. by apply swap_other.
  - fold (del_without s q). unfold del_of at 1. cbn [s_ops s_del]. rewrite del_stop. intros H. destruct (s_ops s !! (q, x)) as [k|] eqn:E; [|by apply S].
    apply swap_other; [|by apply S]. intros ->. pose proof (i_ops_inj s I _ _ _ E H) as Eq. injection Eq as ->. done.
Qed.
Lemma sound_run p l : forall s, inv s -> sound_op p s -> ~ In (SStop p) l -> sound_op p (srun s l).
Proof.
  induction l as [|a l IH]; intros s I S N; [done|]. apply IH; [by apply step_inv|apply sound_step; try done; intros ->; apply N; by left|]. intros H. apply N. by right.
Qed.
(** A subscription is held and has listed the store. *)
Lemma listen_held p s v x : inv s -> same_base s v -> sound_op p s -> is_view_kind x = true -> let i := s_handlers s in
  held (sstep s (SListen p x)) p x i /\ vs_handlers (vact_step hash lister v (Listen x)) !! i = Some x /\ s_log (sstep s (SListen p x)) i = vs_log (vact_step hash lister v (Listen x)) i.
Proof.
  intros I [B1 B2] S V i. subst i. cbn [SharedModel.sstep vact_step]. rewrite V. destruct (op_informer s p x) as [s1 j] eqn:E.
  destruct (op_inv _ _ _ _ _ E I) as (I1 & H1 & Hc & Hh & _ & _ & _ & H2 & _ & H5 & _ & H4 & _). split_and!.
  - exists j. unfold del_of in *. cbn. rewrite Hh, lookup_insert. split_and!; [done|done|]. destruct (s_ops s !! (p, x)) as [k|] eqn:Ek; [|by apply H5].
    assert (k = j) as -> by (unfold op_informer in E; rewrite Ek in E; by injection E). apply H2. by apply S.
  - cbn. by rewrite B2, lookup_insert.
  - cbn. rewrite Hh, <- B2, Hc, B1. by rewrite !decide_True.
Qed.
Lemma watch_held s v x : inv s -> same_base s v -> is_view_kind x = true -> let i := s_handlers s in
  held_own (sstep s (SWatch x)) x i /\ vs_handlers (vact_step hash lister v (Listen x)) !! i = Some x /\ s_log (sstep s (SWatch x)) i = vs_log (vact_step hash lister v (Listen x)) i.
Proof.
  intros I [B1 B2] V i. subst i. cbn [SharedModel.sstep vact_step]. rewrite V. destruct (own_informer s x) as [s1 j] eqn:E.
  destruct (own_inv _ _ _ _ E I) as (I1 & H1 & Hc & Hh & _). split_and!.
  - exists j. cbn. rewrite Hh, lookup_insert. done.
  - cbn. by rewrite B2, lookup_insert.
  - cbn. rewrite Hh, <- B2, Hc, B1. by rewrite !decide_True.
Qed.

(** *** Handlers that are cut off *)
Definition cut (s : shared) (i : nat) : Prop := (i < s_handlers s)%nat /\
  forall j, s_on s !! i = Some j -> (forall x, s_own s !! x <> Some j) /\ forall x, j ∉ del_of s x.
Lemma cut_fire s e i : inv s -> cut s i -> s_log (fire s e) i = s_log s i /\ cut (fire s e) i.
Proof.
  intros I [Hi C]. unfold fire. destruct (own_informer s e.1) as [s1 k] eqn:Eo. destruct (own_inv _ _ _ _ Eo I) as (I1 & Hk & _ & Hh & Hl & Ho & _ & Hd & _ & Hn & _). cbn.
  assert (C1 : forall j, s_on s1 !! i = Some j -> (forall x, s_own s1 !! x <> Some j) /\ forall x, j ∉ del_of s1 x).
  { intros j Hj. rewrite Ho in Hj. destruct (C j Hj) as [C1 C2]. split.
    - intros x Hx. apply Hn in Hx as [Hx|[-> ->]]; [by eapply C1|]. apply (i_on s I) in Hj. lia.
    - intros x. unfold del_of. rewrite Hd. apply C2. }
  split.
  - rewrite Hl. rewrite <- (app_nil_r (s_log s i)) at 2. f_equal. rewrite decide_False by (intros Ek; destruct (C1 k Ek) as [D1 _]; by eapply D1). cbn [app].
    assert (G : forall js, (forall j, j ∈ js -> j ∈ del_of s1 e.1) -> concat (map (fun k => if decide (s_on s1 !! i = Some k) then [copied e.2] else []) js) = []).
    { intros js. induction js as [|j js IH]; intros H; [done|]. cbn [map concat]. rewrite IH by (intros; apply H; by right). rewrite decide_False; [done|].
      intros Ej. destruct (C1 j Ej) as [_ D2]. apply (D2 e.1), H. by left. }
    by apply G.
  - split; [by rewrite Hh|]. cbn. apply C1.
Qed.
Lemma cut_step s a i : inv s -> cut s i -> s_log (sstep s a) i = s_log s i /\ cut (sstep s a) i.
Proof.
  intros I [Hi C]. destruct a as [o|q y|y|k|q y|y|q]; cbn [SharedModel.sstep]; try done.
  - destruct (vstep hash lister (s_cache s) o) as [[c es] r]. set (s1 := Shared _ _ _ _ _ _ _ _).
    assert (I1 : inv s1). { destruct I as [I1 I2 I3 I4 I5 I6 I7 I8]. by split. } assert (C1 : cut s1 i) by done. change (s_log s i) with (s_log s1 i). clearbody s1.
    clear -I1 C1. revert s1 I1 C1. induction es as [|e es IH]; intros s I C; [done|]. cbn [foldl]. destruct (cut_fire s e i I C) as [E C1]. destruct (fire_keeps s e I) as (I1 & _).
    rewrite <- E. by apply IH.
  - destruct (is_view_kind y); [|done]. destruct (op_informer s q y) as [s1 j] eqn:E. destruct (op_inv _ _ _ _ _ E I) as (_ & _ & _ & Hh & Hl & Ho & Hw & _ & Hd & _).
    cbn. rewrite Hh, Hl. rewrite decide_False by lia. split; [done|]. split; cbn; [lia|]. rewrite Hh, Ho. intros k. rewrite lookup_insert_ne by lia. intros Hk. destruct (C k Hk) as [C1 C2].
    split; [by rewrite Hw|]. intros x. unfold del_of in *. cbn. intros Hx. apply Hd in Hx as [Hx|[-> ->]]; [by eapply C2|]. apply (i_on s I) in Hk. lia.
  - destruct (is_view_kind y); [|done]. destruct (own_informer s y) as [s1 j] eqn:E. destruct (own_inv _ _ _ _ E I) as (_ & _ & _ & Hh & Hl & Ho & _ & Hd & _ & Hn & _).
    cbn. rewrite Hh, Hl. rewrite decide_False by lia. split; [done|]. split; cbn; [lia|]. rewrite Hh, Ho. intros k. rewrite lookup_insert_ne by lia. intros Hk. destruct (C k Hk) as [C1 C2]. split.
    + intros x Hx. apply Hn in Hx as [Hx|[-> ->]]; [by eapply C1|]. apply (i_on s I) in Hk. lia.
    + unfold del_of. cbn. rewrite Hd. apply C2.
  - split; [done|]. split; [done|]. cbn. intros j Hj. apply lookup_delete_Some in Hj as [_ Hj]. by apply C.
  - destruct (s_ops s !! (q, y)) as [k|] eqn:E; [|done]. split; [done|]. split; [done|]. cbn. intros j Hj. destruct (C j Hj) as [C1 C2]. split; [done|]. intros x. unfold del_of in *. cbn.
    destruct (decide (y = x)) as [->|Ny]; [rewrite lookup_alter|by rewrite lookup_alter_ne]. specialize (C2 x). destruct (s_del s !! x) as [l|]; [|done]. cbn in *.
    destruct (decide (j = k)) as [->|Nk]; [|by rewrite swap_other]. unfold swap_remove. destruct (list_find _ l) as [[n z]|] eqn:F; [|done].
    apply list_find_Some in F as (F & -> & _). apply elem_of_list_lookup_2 in F. done.
  - split; [done|]. split; [done|]. cbn. intros j Hj. destruct (C j Hj) as [C1 C2]. split; [|done]. intros x Hx. apply lookup_delete_Some in Hx as [_ Hx]. by eapply C1.
  - split; [done|]. split; [done|]. cbn. intros j Hj. destruct (C j Hj) as [C1 C2]. split; [done|]. intros x. fold (del_without s q). unfold del_of at 1. cbn [s_del]. rewrite del_stop.
    destruct (s_ops s !! (q, x)) as [k|]; [|apply C2]. specialize (C2 x). destruct (decide (j = k)) as [->|Nk]; [|by rewrite swap_other]. unfold swap_remove. destruct (list_find _ _) as [[n z]|] eqn:F; [|done].
    apply list_find_Some in F as (F & -> & _). apply elem_of_list_lookup_2 in F. done.
Qed.
Lemma cut_run s l i : inv s -> cut s i -> s_log (srun s l) i = s_log s i.
Proof.
  revert s. induction l as [|a l IH]; intros s I C; [done|]. destruct (cut_step s a i I C) as [E C1]. rewrite <- E. apply IH; [by apply step_inv|done].
Qed.
(** The end of a subscription. *)
Lemma ends_cut s p x i a : inv s -> held s p x i -> a = SStop p \/ a = SRemove p x \/ a = SLeave i -> s_log (sstep s a) i = s_log s i /\ cut (sstep s a) i.
Proof.
  intros I (j & A & B & D) E. pose proof (i_on s I _ _ A) as [Hi _].
  assert (Only : forall y, j ∈ del_of s y -> y = x). { intros y H. apply (i_del s I) in H as (q & H). pose proof (i_ops_inj s I _ _ _ H B) as Eq. by injection Eq. }
  assert (Out : forall l, NoDup l -> j ∉ swap_remove j l) by (intros l N; by apply swap_nodup).
  destruct E as [->|[->| ->]]; cbn [SharedModel.sstep].
  - split; [done|]. split; [done|]. cbn. intros k Hk. rewrite A in Hk. injection Hk as <-. split; [intros y Hy; by eapply (i_apart s I)|]. intros y. fold (del_without s p). unfold del_of at 1. cbn [s_del]. rewrite del_stop.
    destruct (s_ops s !! (p, y)) as [k|] eqn:Ek.
    + destruct (decide (j = k)) as [->|Nk]; [apply Out, (i_nodup s I)|]. rewrite swap_other by done. intros Hy. apply Only in Hy. subst y. rewrite B in Ek. by injection Ek.
    + intros Hy. apply Only in Hy. subst y. by rewrite B in Ek.
  - rewrite B. split; [done|]. split; [done|]. cbn. intros k Hk. rewrite A in Hk. injection Hk as <-. split; [intros y Hy; by eapply (i_apart s I)|]. intros y. unfold del_of. cbn.
    destruct (decide (x = y)) as [<-|Ny]; [rewrite lookup_alter|rewrite lookup_alter_ne by done; intros Hy; apply Only in Hy; congruence].
    pose proof (i_nodup s I x) as N. unfold del_of in N. destruct (s_del s !! x) as [l|]; cbn in *; [by apply Out|by intros ?%elem_of_nil].
  - split; [done|]. split; [done|]. cbn. intros k Hk. by rewrite lookup_delete in Hk.
Qed.
End shared.

(** *** Walks *)
Lemma walk_quiet_gen l acts : Forall (fun a => a = WNext \/ exists j, a = WRegister j) acts ->
  forall w k, h_walk w = Some (0%nat, length l, k) -> (0 < length (h_arrays w))%nat -> take (length l) (arr w 0) = l -> ((h_now w).1 = 0%nat -> (length l <= (h_now w).2)%nat) -> h_got w = take k l -> (k <= length l)%nat ->
    h_got (walk_run w acts) = take (k + length (List.filter is_next acts)) l.
Proof.
  induction 1 as [|a acts Ha F IH]; intros w k W L0 A N E K; [cbn; by rewrite Nat.add_0_r|]. change (walk_run w (a :: acts)) with (walk_run (walk_step w a) acts). cbn [List.filter].
  unfold walk_step. destruct (h_now w) as [n len] eqn:En. cbn [fst snd] in N. destruct Ha as [->|(j & ->)]; cbn [is_next].
  - rewrite W. destruct (Nat.ltb_spec k (length l)) as [Lt|Ge].
    + rewrite (IH _ (S k)); cbn; try done.
      * f_equal. lia.
      * rewrite E. destruct (lookup_lt_is_Some_2 l k Lt) as [j Hj]. rewrite (take_S_r l k j Hj). f_equal. rewrite <- A in Hj. rewrite lookup_take in Hj by done. by rewrite Hj.
    + rewrite (IH w k); try done; [|by rewrite En]. cbn [length]. rewrite !take_ge; [done|lia..].
  - destruct (Nat.ltb_spec len (length (arr w n))) as [Lt|Ge]; apply IH; cbn; try done.
    + by rewrite insert_length.
    + unfold arr at 1. cbn. destruct (decide (n = 0%nat)) as [->|Nn].
      * rewrite list_lookup_insert by done. cbn. rewrite take_insert by (apply N; done). done.
      * by rewrite list_lookup_insert_ne by done.
    + intros Hn. specialize (N Hn). lia.
    + rewrite app_length. lia.
    + unfold arr at 1. cbn. rewrite lookup_app_l by done. done.
    + intros Hn. lia.
Qed.
Lemma walk_quiet l acts : Forall (fun a => a = WNext \/ exists j, a = WRegister j) acts ->
  h_got (walk_run (walk_step (walk0 l) WStart) acts) = take (length (List.filter is_next acts)) l.
Proof. intros F. rewrite (walk_quiet_gen l acts F _ 0%nat); [done|done|cbn; lia|cbn; by rewrite firstn_all|done|done|lia]. Qed.
