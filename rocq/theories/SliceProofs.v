(** Merging on memory does what merging on values does, if no list has room for more. *)
From Verif Require Import SliceModel SliceSpec JsonModel JsonProofs StageModel MergeProofs.
Local Open Scope nat_scope.
Local Notation like lim h := (fun (x : string * sval) (y : string * json) => x.1 = y.1 /\ within lim h x.2 y.2).

(** Memory [h] has what [h0] had, but for what is beyond the limits. *)
Definition keeps (lim : nat -> option nat) (h0 h : arrays) : Prop := forall c l, h0 !! c = Some l ->
  match lim c with None => h !! c = Some l | Some n => exists rest, h !! c = Some (take n l ++ rest) /\ length (take n l ++ rest) = length l end.
Lemma keeps_refl lim h : keeps lim h h.
Proof. intros c l Hc. destruct (lim c) as [n|]; [|exact Hc]. exists (drop n l). rewrite take_drop. auto. Qed.
Lemma within_keeps lim h0 h j : keeps lim h0 h -> forall v, within lim h0 v j -> within lim h v j.
Proof.
  intros HP. induction j as [| | | | |js IH|jm IH] using json_rect'; intros v H; inversion H as [| | | | |a nn l js' Ha Hn Hlim Hl|m jm' Hm]; subst; try constructor.
  - assert (G : exists l', h !! a = Some l' /\ nn <= length l' /\ take nn l' = take nn l).
    { specialize (HP a l Ha). destruct (lim a) as [n'|] eqn:El; [|exists l; auto].
      destruct HP as (rest & E1 & E2). exists (take n' l ++ rest). split; [exact E1|]. split; [lia|].
      pose proof (Hlim n' eq_refl). rewrite take_app_le by (rewrite take_length; lia). rewrite take_take. f_equal. lia. }
    destruct G as (l' & G1 & G2 & G3). econstructor; [exact G1|exact G2|exact Hlim|]. rewrite G3. clear - IH Hl. revert Hl. generalize (take nn l).
    induction IH as [|j js Hj _ IH]; intros l0 H; inversion H; subst; constructor; auto.
  - clear H. revert m Hm. induction IH as [|[k j] jm Hj _ IH]; intros m Hm; inversion Hm as [|[k' x] ? m' ? [E R] Hm']; subst; constructor; [|auto]. cbn in *. auto.
Qed.
Lemma within_reads lim h j : forall v, within lim h v j -> reads h v j.
Proof.
  induction j as [| | | | |js IH|jm IH] using json_rect'; intros v H; inversion H as [| | | | |a nn l js' Ha Hn Hlim Hl|m jm' Hm]; subst; try constructor.
  - econstructor; [exact Ha|exact Hn|discriminate|]. clear - IH Hl. revert Hl. generalize (take nn l).
    induction IH as [|j js Hj _ IH]; intros l0 H; inversion H; subst; constructor; auto.
  - clear H. revert m Hm. induction IH as [|[k j] jm Hj _ IH]; intros m Hm; inversion Hm as [|[k' x] ? m' ? [E R] Hm']; subst; constructor; [|auto]. cbn in *. auto.
Qed.
Lemma keeps_app h e : keeps no_limit h (h ++ e).
Proof. intros c l Hc. cbn. apply lookup_app_l_Some, Hc. Qed.
Lemma reads_app h e j v : reads h v j -> reads (h ++ e) v j.
Proof. apply within_keeps, keeps_app. Qed.
Lemma full_app h e v j : reads h v j -> full h v -> full (h ++ e) v.
Proof.
  intros HR HF a n Hf. rewrite <- (HF a n Hf). clear HF. revert j HR. remember (SList a n) as w eqn:E. revert E.
  induction Hf as [v|m k x w Hin Hf IH]; intros -> j HR.
  - inversion HR as [| | | | |? nn l js' Ha Hn Hlim Hl|m jm' Hm]; subst. unfold array. rewrite (lookup_app_l_Some _ _ _ _ Ha), Ha. reflexivity.
  - inversion HR as [| | | | | |m' jm' Hm]; subst. apply elem_of_list_lookup in Hin. destruct Hin as [i Hi].
    destruct (Forall2_lookup_l _ _ _ _ _ Hm Hi) as (y & _ & _ & Hy). cbn in Hy. eapply IH; [reflexivity|exact Hy].
Qed.

(** The entries that a merge of values makes, one by one. *)
Fixpoint rows (f : json -> json -> option json) (mb ma : jobj) : option jobj :=
  match ma with
  | [] => Some []
  | (k, x) :: ma => z ← match mget mb k with Some y => f x y | None => Some x end; r ← rows f mb ma; Some ((k, z) :: r)
  end.
Lemma mset_in pre : forall k x z m, ksorted (pre ++ (k, x) :: m) -> mset (pre ++ (k, x) :: m) k z = pre ++ (k, z) :: m.
Proof.
  induction pre as [|[k' y] pre IH]; intros k x z m H; cbn [app] in *.
  - cbn. rewrite scmp_refl. reflexivity.
  - apply ksorted_cons in H. destruct H as [H HF]. cbn. rewrite Forall_forall in HF.
    assert (G : scmp k k' = Gt) by (apply scmp_gt; apply (HF (k, x)), elem_of_app; right; left). rewrite G. f_equal. exact (IH k x z m H).
Qed.
Lemma left_rows f mb ma : forall pre, ksorted (pre ++ ma) -> merge_left f mb ma (pre ++ ma) = r ← rows f mb ma; Some (pre ++ r).
Proof.
  induction ma as [|[k x] ma IH]; intros pre H; [reflexivity|]. cbn [merge_left rows].
  assert (S : forall z, mset (pre ++ (k, x) :: ma) k z = (pre ++ [(k, z)]) ++ ma) by (intros z; rewrite (mset_in pre k x z ma H), <- app_assoc; reflexivity).
  assert (K : forall z, ksorted ((pre ++ [(k, z)]) ++ ma)) by (intros z; rewrite <- app_assoc; unfold ksorted in *; rewrite map_app in *; exact H).
  destruct (mget mb k) as [y|].
  - destruct (f x y) as [z|]; [|reflexivity]. cbn. rewrite S, (IH _ (K z)). destruct (rows f mb ma); cbn; [|reflexivity]. rewrite <- app_assoc. reflexivity.
  - cbn. rewrite S, (IH _ (K x)). destruct (rows f mb ma); cbn; [|reflexivity]. rewrite <- app_assoc. reflexivity.
Qed.

Lemma nodup_sub (l l' : list nat) : sublist l l' -> NoDup l' -> NoDup l.
Proof.
  induction 1 as [|x l l' H IH|x l l' H IH]; intros HN; [constructor| |]; apply NoDup_cons in HN; destruct HN as [N1 N2]; [|auto].
  constructor; [|auto]. intros Hin. apply N1. eapply elem_of_submseteq; [exact Hin|apply sublist_submseteq, H].
Qed.
Section own.
Variable lim : nat -> option nat.
Variable h0 : arrays.
Notation k0 := (length h0).
(** The arrays that the merge may extend: new ones, and those with a limit. *)
Definition ownb (a : nat) : bool := (k0 <=? a) || match lim a with Some _ => true | None => false end.
Fixpoint news (v : sval) : list nat :=
  match v with
  | SList a _ => if ownb a then [a] else []
  | SMap m => concat (map (fun '(_, x) => news x) m)
  | _ => []
  end.
(** Lists in the fields that the merge does not extend. *)
Definition whole (v : sval) : Prop := full h0 v /\ apart lim v.
(** What a merge has made of values in [h0], in memory [h]. *)
Inductive good (h : arrays) : sval -> json -> Prop :=
  | good_old v j : within lim h0 v j -> whole v -> good h v j
  | good_new a n l js :
      ownb a = true -> h !! a = Some l -> n <= length l -> (forall n', a < k0 -> lim a = Some n' -> n' <= n) ->
      Forall2 (within lim h0) (take n l) js -> good h (SList a n) (JList js)
  | good_map m jm : Forall2 (fun (x : string * sval) (y : string * json) => x.1 = y.1 /\ good h x.2 y.2) m jm -> good h (SMap m) (JMap jm).
Notation goods h := (fun (x : string * sval) (y : string * json) => x.1 = y.1 /\ good h x.2 y.2).

Lemma whole_in m k x : whole (SMap m) -> (k, x) ∈ m -> whole x.
Proof. intros [HF HA] Hin. split; intros a n Hf; [apply HF|apply (HA a n)]; econstructor; eassumption. Qed.
Lemma whole_tail x m : whole (SMap (x :: m)) -> whole (SMap m).
Proof. intros [HF HA]. split; intros a n Hf; [apply HF|apply (HA a n)]; (inversion Hf as [|m' k' x' w' Hin Hx]; subst; econstructor; [right; exact Hin|exact Hx]). Qed.
Lemma news_old j : forall v, within lim h0 v j -> whole v -> news v = [].
Proof.
  induction j as [| | | | |js IH|jm IH] using json_rect'; intros v H HW; inversion H as [| | | | |a nn l js' Ha Hn Hlim Hl|m jm' Hm]; subst; try reflexivity.
  - cbn. unfold ownb. apply lookup_lt_Some in Ha. destruct HW as [_ HA]. rewrite (HA a nn (field_self _)). destruct (k0 <=? a) eqn:L; [apply Nat.leb_le in L; lia|reflexivity].
  - cbn. clear H. revert m Hm HW. induction IH as [|[k j] jm Hj _ IH]; intros m Hm HW; inversion Hm as [|[k' x] ? m' ? [E R] Hm']; subst; [reflexivity|].
    cbn in *. rewrite (Hj x R) by (apply (whole_in _ k' x HW); left). exact (IH m' Hm' (whole_tail _ _ HW)).
Qed.
Lemma good_reads h j : keeps lim h0 h -> forall v, good h v j -> reads h v j.
Proof.
  intros HP. induction j as [| | | | |js IH|jm IH] using json_rect'; intros v H; inversion H as [v1 j1 R F|a nn l js' Hk Ha Hn Hlim Hl|m jm' Hm]; subst;
    try (eapply within_reads, within_keeps; eassumption).
  - econstructor; [eassumption|assumption|discriminate|]. eapply Forall2_impl; [exact Hl|]. intros x y R. eapply within_reads, within_keeps; eassumption.
  - constructor. clear H. revert m Hm. induction IH as [|[k j] jm Hj _ IH]; intros m Hm; inversion Hm as [|[k' x] ? m' ? [E R] Hm']; subst; constructor; [|auto].
    cbn in *. auto.
Qed.
Lemma good_frame h h' j : forall v, good h v j -> (forall c, c ∈ news v -> h' !! c = h !! c) -> good h' v j.
Proof.
  induction j as [| | | | |js IH|jm IH] using json_rect'; intros v H HE; inversion H as [v1 j1 R F|a nn l js' Hk Ha Hn Hlim Hl|m jm' Hm]; subst; try (apply good_old; assumption).
  - eapply good_new; [assumption| |eassumption|assumption|assumption]. rewrite HE; [exact Ha|]. cbn. rewrite Hk. left.
  - apply good_map. cbn in HE. clear H. revert m Hm HE. induction IH as [|[k j] jm Hj _ IH]; intros m Hm HE; inversion Hm as [|[k' x] ? m' ? [E R] Hm']; subst; constructor.
    + cbn in *. split; [exact E|]. apply Hj; [exact R|]. intros c Hc. apply HE, elem_of_app. left. exact Hc.
    + apply IH; [exact Hm'|]. intros c Hc. apply HE. cbn. apply elem_of_app. right. exact Hc.
Qed.
Lemma good_news h j : forall v, good h v j -> forall c, c ∈ news v -> c < length h.
Proof.
  induction j as [| | | | |js IH|jm IH] using json_rect'; intros v H c; inversion H as [v1 j1 R F|a nn l js' Hk Ha Hn Hlim Hl|m jm' Hm]; subst;
    try (rewrite (news_old _ v) by eassumption; intros Hc; inversion Hc).
  - cbn. rewrite Hk. intros Hc. apply elem_of_list_singleton in Hc. subst c. apply lookup_lt_Some in Ha. lia.
  - cbn. clear H. revert m Hm. induction IH as [|[k j] jm Hj _ IH]; intros m Hm Hc; inversion Hm as [|[k' x] ? m' ? [E R] Hm']; subst; [inversion Hc|].
    cbn in *. apply elem_of_app in Hc. destruct Hc as [Hc|Hc]; [exact (Hj x R c Hc)|exact (IH m' Hm' Hc)].
Qed.
Lemma old_get m jm k :
  Forall2 (like lim h0) m jm -> whole (SMap m) ->
  match kget m k, mget jm k with Some x, Some j => within lim h0 x j /\ whole x | None, None => True | _, _ => False end.
Proof.
  intros H. induction H as [|[k1 x] [k2 y] m jm [E R] _ IH]; intros F; [exact I|]. cbn in E, R. subst k2. cbn [kget mget].
  destruct (decide (k = k1)) as [->|].
  - split; [exact R|]. apply (whole_in _ k1 x F). left.
  - apply IH. exact (whole_tail _ _ F).
Qed.
Lemma kget_goods h m jm k : Forall2 (goods h) m jm -> (kget m k = None <-> mget jm k = None).
Proof.
  induction 1 as [|[k1 x] [k2 y] m jm [E R] _ IH]; [tauto|]. cbn in E. subst k2. cbn [kget mget]. destruct (decide (k = k1)); [split; discriminate|exact IH].
Qed.
Lemma goods_set h m jm k x j : Forall2 (goods h) m jm -> good h x j -> Forall2 (goods h) (kset m k x) (mset jm k j).
Proof.
  intros H R. induction H as [|[k1 x1] [k2 y1] m jm [E R1] H IH]; [constructor; [auto|constructor]|]. cbn in E, R1. subst k2. cbn [kset mset].
  destruct (scmp k k1); repeat (constructor; auto).
Qed.
Lemma news_set m k y : news y = [] -> sublist (news (SMap (kset m k y))) (news (SMap m)).
Proof.
  intros E. induction m as [|[k1 x] m IH]; [cbn; rewrite E; constructor|]. cbn [kset]. destruct (scmp k k1).
  - cbn. rewrite E. apply sublist_inserts_l. reflexivity.
  - cbn. rewrite E. reflexivity.
  - cbn. apply sublist_app; [reflexivity|exact IH].
Qed.
Lemma good_fields h m jm : good h (SMap m) (JMap jm) -> Forall2 (goods h) m jm.
Proof.
  intros H. inversion H as [v' j' R F| |m' jm' Hm]; subst; [|exact Hm]. inversion R as [| | | | | |m' jm' Hm]; subst. clear R H.
  induction Hm as [|[k x] [k' j] m jm [E R] Hm IH]; constructor.
  - cbn in *. split; [exact E|]. apply good_old; [exact R|]. apply (whole_in _ k x F). left.
  - apply IH. exact (whole_tail _ _ F).
Qed.
Lemma good_list h v js : keeps lim h0 h -> good h v (JList js) -> exists a n l, v = SList a n /\ h !! a = Some l /\ n <= length l
  /\ (ownb a = false -> n = length l /\ within lim h0 v (JList js) /\ whole v) /\ (forall n', a < k0 -> lim a = Some n' -> n' <= n) /\ Forall2 (within lim h0) (take n l) js.
Proof.
  intros HP H. inversion H as [v' j' R F|a nn l js' Hk Ha Hn Hlim Hl|]; subst.
  - inversion R as [| | | | |a nn l js' Ha Hn Hlim Hl|]; subst. exists a, nn, l. pose proof (proj2 F a nn (field_self _)) as El.
    pose proof (HP a l Ha) as Hh. rewrite El in Hh. split; [reflexivity|]. split; [exact Hh|]. split; [exact Hn|]. split; [|split; [rewrite El; discriminate|exact Hl]].
    intros _. split; [|auto]. rewrite <- (proj1 F a nn (field_self _)). unfold array. rewrite Ha. reflexivity.
  - exists a, nn, l. split; [reflexivity|]. split; [exact Ha|]. split; [exact Hn|]. split; [rewrite Hk; discriminate|auto].
Qed.
(** The first object may own arrays with limits. *)
Lemma good_init j : forall v, within lim h0 v j -> (forall a n, field_of v (SList a n) -> match lim a with Some n' => n = n' | None => length (array h0 a) = n end) ->
  good h0 v j /\ news v = rooms lim v.
Proof.
  induction j as [| | | | |js IH|jm IH] using json_rect'; intros v H HF; inversion H as [| | | | |a nn l js' Ha Hn Hlim Hl|m jm' Hm]; subst;
    try (split; [apply good_old; [exact H|split; intros ? ? Hf; inversion Hf]|reflexivity]).
  - pose proof (HF a nn (field_self _)) as Hf0. cbn. unfold ownb. pose proof (lookup_lt_Some _ _ _ Ha) as La. destruct (k0 <=? a) eqn:L; [apply Nat.leb_le in L; lia|].
    destruct (lim a) as [n'|] eqn:El; cbn; (split; [|reflexivity]).
    + subst n'. eapply good_new; [unfold ownb; rewrite El; apply orb_true_r|exact Ha|exact Hn|intros n' _ E; rewrite El in E; injection E as <-; lia|exact Hl].
    + apply good_old; [exact H|]. split; intros a' n' Hf; inversion Hf; subst; [reflexivity|exact El].
  - assert (G : Forall2 (goods h0) m jm /\ news (SMap m) = rooms lim (SMap m)); [|destruct G as [G1 G2]; split; [apply good_map; exact G1|exact G2]].
    clear H. revert m Hm HF. induction IH as [|[k j] jm Hj _ IH]; intros m Hm HF; inversion Hm as [|[k' x] ? m' ? [E R] Hm']; subst; [split; [constructor|reflexivity]|].
    cbn in E, R. subst k'. destruct (Hj x R) as [G1 G2]; [intros a n Hf; apply HF; econstructor; [left|exact Hf]|].
    destruct (IH m' Hm') as [I1 I2]. { intros a n Hf. apply HF. inversion Hf as [|m1 k1 x1 w1 Hin Hx]; subst. econstructor; [right; exact Hin|exact Hx]. }
    split; [constructor; [split; [reflexivity|exact G1]|exact I1]|]. cbn in *. rewrite G2, I2. reflexivity.
Qed.

Variable grow : nat -> nat -> nat.
Definition sim (h : arrays) (old : list nat) (r : arrays * option sval) (rj : option json) : Prop :=
  length h <= length r.1 /\ keeps lim h0 r.1 /\ (forall c, c < length h -> c ∉ old -> r.1 !! c = h !! c)
  /\ match r.2, rj with
     | Some v, Some j => good r.1 v j /\ NoDup (news v) /\ forall c, c ∈ news v -> c ∈ old \/ length h <= c
     | None, None => True
     | _, _ => False
     end.
Lemma sim_old h old v j : keeps lim h0 h -> within lim h0 v j -> whole v -> sim h old (h, Some v) (Some j).
Proof.
  intros HP R F. split; [cbn; lia|]. split; [exact HP|]. split; [reflexivity|]. cbn. rewrite (news_old j v R F). split; [apply good_old; assumption|]. split; [constructor|]. inversion 1.
Qed.
Lemma sim_append h a n l vs js ws :
  k0 <= length h -> keeps lim h0 h -> h !! a = Some l -> n <= length l ->
  (ownb a = false -> n = length l /\ within lim h0 (SList a n) (JList js) /\ whole (SList a n)) -> (forall n', a < k0 -> lim a = Some n' -> n' <= n) ->
  Forall2 (within lim h0) (take n l) js -> Forall2 (within lim h0) vs ws ->
  sim h (news (SList a n)) (let '(h, r) := append_to grow h a n vs in (h, Some r)) (Some (JList (js ++ ws))).
Proof.
  intros Hk HP Ha Hn Hor Hlim Hl Hv. unfold append_to, array. rewrite Ha. cbv zeta. change (default [] (Some l)) with l.
  pose proof (lookup_lt_Some _ _ _ Ha) as La.
  destruct (n + length vs <=? length l) eqn:L; [apply Nat.leb_le in L|apply Nat.leb_gt in L].
  - destruct (ownb a) eqn:Hb.
    + split; [cbn; rewrite insert_length; lia|]. split; [|split].
      * intros c l0 Hc. specialize (HP c l0 Hc). cbn. pose proof (lookup_lt_Some _ _ _ Hc) as Lc. destruct (decide (c = a)) as [->|Hne].
        -- rewrite list_lookup_insert by exact La. unfold ownb in Hb. destruct (lim a) as [n'|] eqn:El.
           ++ pose proof (Hlim n' Lc eq_refl) as Hle. destruct HP as (rest & E1 & E2). rewrite Ha in E1. injection E1 as E1.
              exists (drop n' (take n l ++ vs ++ drop (n + length vs) l)).
              assert (T : take n' l0 = take n' (take n l ++ vs ++ drop (n + length vs) l)).
              { rewrite take_app_le by (rewrite take_length; lia). rewrite take_take. replace (n' `min` n) with n' by lia. rewrite E1.
                destruct (decide (n' <= length l0)).
                - rewrite take_app_le by (rewrite take_length; lia). rewrite take_take. f_equal. lia.
                - rewrite (take_ge l0) in E2 |- * by lia. rewrite app_length in E2. destruct rest; [|cbn in E2; lia]. rewrite app_nil_r. rewrite take_ge by lia. reflexivity. }
              rewrite T, take_drop. split; [reflexivity|]. rewrite !app_length, take_length, drop_length. assert (length l = length l0) by (rewrite E1; exact E2). lia.
           ++ exfalso. rewrite orb_false_r in Hb. apply Nat.leb_le in Hb. lia.
        -- rewrite list_lookup_insert_ne by congruence. exact HP.
      * cbn. intros c Hc Hnot. rewrite list_lookup_insert_ne; [reflexivity|]. intros ->. apply Hnot. rewrite Hb. left.
      * cbn. rewrite Hb. split; [|split; [apply NoDup_singleton|intros c Hc; left; exact Hc]].
        eapply good_new; [exact Hb|apply list_lookup_insert; exact La|rewrite !app_length, take_length, drop_length; lia|intros n' Hlt E; specialize (Hlim n' Hlt E); lia|].
        rewrite app_assoc, take_app_alt by (rewrite app_length, take_length; lia). apply Forall2_app; assumption.
    + destruct (Hor eq_refl) as (En & R & F). subst n. destruct vs as [|v vs]; [|cbn in L; lia]. inversion Hv; subst.
      cbn [length]. rewrite Nat.add_0_r, firstn_all, skipn_all, !app_nil_r in *. rewrite list_insert_id by exact Ha. cbn [app]. apply sim_old; assumption.
  - split; [cbn; rewrite app_length; cbn; lia|]. split; [|split].
    + intros c l0 Hc. specialize (HP c l0 Hc). cbn. destruct (lim c); [destruct HP as (rest & E1 & E2); exists rest; split; [apply lookup_app_l_Some, E1|exact E2]|apply lookup_app_l_Some, HP].
    + cbn. intros c Hc _. apply lookup_app_l. exact Hc.
    + cbn. assert (Hb : ownb (length h) = true) by (unfold ownb; apply Nat.leb_le in Hk; rewrite Hk; reflexivity). rewrite Hb.
      split; [|split; [apply NoDup_singleton|intros c Hc; apply elem_of_list_singleton in Hc; right; lia]].
      eapply good_new; [exact Hb|rewrite lookup_app_r, Nat.sub_diag by lia; reflexivity|rewrite !app_length, take_length; lia|lia|].
      rewrite app_assoc, take_app_alt by (rewrite app_length, take_length; lia). apply Forall2_app; assumption.
Qed.

Definition tracks (ja : json) : Prop := forall a b jb h,
  jwf ja -> good h a ja -> within lim h0 b jb -> whole b -> k0 <= length h -> keeps lim h0 h ->
  NoDup (news a) -> sim h (news a) (s_merge grow a b h) (ValueModel.merge ja jb).

Lemma left_sim ys jm : Forall2 (like lim h0) ys jm -> whole (SMap ys) -> forall xs ma, Forall (fun kv => tracks kv.2) ma -> Forall (fun kv => jwf kv.2) ma ->
  forall h, Forall2 (goods h) xs ma -> k0 <= length h -> keeps lim h0 h -> NoDup (news (SMap xs)) ->
  let r := s_left (s_merge grow) ys xs h in
  length h <= length r.1 /\ keeps lim h0 r.1 /\ (forall c, c < length h -> c ∉ news (SMap xs) -> r.1 !! c = h !! c)
  /\ match r.2, rows ValueModel.merge jm ma with
     | Some m, Some j => Forall2 (goods r.1) m j /\ NoDup (news (SMap m)) /\ forall c, c ∈ news (SMap m) -> c ∈ news (SMap xs) \/ length h <= c
     | None, None => True
     | _, _ => False
     end.
Proof.
  intros HY FY xs. induction xs as [|[k x] xs IH]; intros ma HT HW h HX Hk HP HN.
  { inversion HX; subst. cbn. split; [lia|]. split; [exact HP|]. split; [reflexivity|]. split; [constructor|]. split; [constructor|]. inversion 1. }
  inversion HX as [|? [k' j] ? ma' [E R] HX']; subst. cbn in E, R. subst k'.
  apply Forall_cons in HT. destruct HT as [Hj HT]. apply Forall_cons in HW. destruct HW as [Wj HW]. cbn [snd] in Hj, Wj.
  cbn [news map concat] in HN. apply NoDup_app in HN. destruct HN as (N1 & N2 & N3).
  cbn [s_left rows].
  assert (S : sim h (news x) (match kget ys k with Some y => s_merge grow x y h | None => (h, Some x) end)
              (match mget jm k with Some y => ValueModel.merge j y | None => Some j end)).
  { pose proof (old_get ys jm k HY FY) as G. destruct (kget ys k) as [y|], (mget jm k) as [jy|]; try contradiction.
    - destruct G as [G1 G2]. apply Hj; assumption.
    - split; [cbn; lia|]. split; [exact HP|]. split; [reflexivity|]. cbn. split; [exact R|]. split; [exact N1|]. auto. }
  destruct (match kget ys k with Some y => s_merge grow x y h | None => (h, Some x) end) as [h1 z].
  destruct S as (S1 & HP1 & S2 & S3). cbn [fst snd] in S1, HP1, S2, S3.
  destruct (match mget jm k with Some y => ValueModel.merge j y | None => Some j end) as [jz|]; destruct z as [z|]; try contradiction.
  2: { cbn. split; [exact S1|]. split; [exact HP1|]. split; [|exact I]. intros c Hc Hnot. apply S2; [exact Hc|]. intros Hin. apply Hnot, elem_of_app. left. exact Hin. }
  destruct S3 as (S3 & S4 & S5). cbn [mbind option_bind].
  assert (B : forall c, c ∈ news (SMap xs) -> c < length h) by (intros c Hc; eapply good_news; [apply (good_map h xs ma' HX')|exact Hc]).
  assert (GX : Forall2 (goods h1) xs ma').
  { apply (good_fields h1 xs ma'). apply (good_frame h); [apply good_map; exact HX'|]. intros c Hc. apply S2; [auto|]. intros Hin. exact (N2 c Hin Hc). }
  assert (Hk1 : k0 <= length h1) by lia.
  destruct (IH ma' HT HW h1 GX Hk1 HP1 N3) as (I1 & HP2 & I2 & I3). cbv zeta in I1, HP2, I2, I3.
  destruct (s_left (s_merge grow) ys xs h1) as [h2 r]. cbn [fst snd] in I1, HP2, I2, I3.
  assert (FR : forall c, c < length h -> c ∉ news (SMap ((k, x) :: xs)) -> h2 !! c = h !! c).
  { intros c Hc Hnot. cbn in Hnot. rewrite elem_of_app in Hnot. rewrite I2; [apply S2; [exact Hc|tauto]|lia|tauto]. }
  destruct (rows ValueModel.merge jm ma') as [jr|]; destruct r as [r|]; try contradiction; cbn [fst snd mbind option_bind].
  2: { split; [lia|]. split; [exact HP2|]. split; [exact FR|exact I]. }
  destruct I3 as (I3 & I4 & I5). split; [lia|]. split; [exact HP2|]. split; [exact FR|].
  assert (Z : forall c, c ∈ news z -> c < length h1 /\ c ∉ news (SMap xs)).
  { intros c Hc. split; [eapply good_news; [exact S3|exact Hc]|]. intros Hin. destruct (S5 c Hc) as [Hx|Hx]; [exact (N2 c Hx Hin)|]. pose proof (B c Hin). lia. }
  split; [constructor; [|exact I3]|].
  - split; [reflexivity|]. cbn. apply (good_frame h1); [exact S3|]. intros c Hc. destruct (Z c Hc). apply I2; assumption.
  - cbn [news map concat]. split.
    + apply NoDup_app. split; [exact S4|]. split; [|exact I4]. intros c Hc Hr. destruct (Z c Hc) as [Z1 Z2]. destruct (I5 c Hr) as [Hr'|Hr']; [contradiction|lia].
    + intros c Hc. apply elem_of_app in Hc. rewrite elem_of_app. destruct Hc as [Hc|Hc]; [destruct (S5 c Hc); auto|]. destruct (I5 c Hc) as [Hr|Hr]; [auto|right; lia].
Qed.

Lemma merge_tracks ja : tracks ja.
Proof.
  induction ja as [|ba|na|fa|sa|la IH|ma IH] using json_rect'; intros a b jb h HW Ga Rb HF Hk HP HN.
  1: { inversion Ga as [v' j' R F| |]; subst. inversion R; subst. cbn. apply sim_old; assumption. }
  1,2,3,4: inversion Ga as [v' j' R F| |]; subst; inversion R; subst; inversion Rb; subst; cbn; try (apply sim_old; assumption); (split; [cbn; lia|split; [exact HP|split; [reflexivity|exact I]]]).
  - destruct (good_list h a la HP Ga) as (aa & n & l & -> & Ha & Hn & Hor & Hlim & Hl).
    inversion Rb as [| | | | |bb bn l' js' Hb Hn' Hlim' Hl'|]; subst; cbn [s_merge ValueModel.merge]; try (apply sim_old; assumption); try (split; [cbn; lia|split; [exact HP|split; [reflexivity|exact I]]]).
    pose proof (HP bb l' Hb) as Hbh. rewrite (proj2 HF bb bn (field_self _)) in Hbh.
    unfold array at 1. rewrite Hbh. change (default [] (Some l')) with l'. eapply sim_append; eassumption.
  - assert (Ea : exists xs, a = SMap xs) by (inversion Ga as [v' j' R F| |]; subst; [inversion R; subst|]; eexists; reflexivity).
    destruct Ea as [xs ->]. pose proof (good_fields h xs ma Ga) as GX.
    inversion Rb as [| | | | | |ys jm HY]; subst; cbn [s_merge ValueModel.merge]; try (apply sim_old; assumption); try (split; [cbn; lia|split; [exact HP|split; [reflexivity|exact I]]]).
    inversion HW as [| | | | | |? HS HWf]; subst.
    destruct (left_sim ys jm HY HF xs ma IH HWf h GX Hk HP HN) as (L1 & HP1 & L2 & L3). cbv zeta in L1, HP1, L2, L3.
    pose proof (left_rows ValueModel.merge jm ma [] HS) as ER. cbn [app] in ER. rewrite ER.
    destruct (s_left (s_merge grow) ys xs h) as [h1 r]. cbn [fst snd] in L1, HP1, L2, L3.
    destruct (rows ValueModel.merge jm ma) as [jr|]; destruct r as [r|]; try contradiction; cbn [mbind option_bind]; (split; [exact L1|split; [exact HP1|split; [exact L2|]]]); [|exact I].
    destruct L3 as (L3 & L4 & L5). cbn [fst snd].
    assert (KX : forall acc jacc, Forall2 (goods h1) acc jacc ->
      Forall2 (goods h1) (s_right xs ys acc) (merge_right ma jm jacc) /\ sublist (news (SMap (s_right xs ys acc))) (news (SMap acc))).
    { clear - GX HY HF. induction HY as [|[k1 x] [k2 y] mb jmb [E R] _ IH]; intros acc jacc Hc; [split; [exact Hc|reflexivity]|].
      cbn in E, R. subst k2. cbn [s_right merge_right].
      pose proof (whole_tail _ _ HF) as HF'. assert (Wx : whole x) by (apply (whole_in _ k1 x HF); left).
      pose proof (kget_goods h xs ma k1 GX) as G. destruct (kget xs k1), (mget ma k1); try (exfalso; destruct G as [G1 G2]; first [discriminate (G1 eq_refl)|discriminate (G2 eq_refl)]).
      - apply IH; assumption.
      - destruct (IH HF' (kset acc k1 x) (mset jacc k1 y)) as [I1 I2].
        + apply goods_set; [exact Hc|]. apply good_old; assumption.
        + split; [exact I1|]. etransitivity; [exact I2|]. apply news_set. exact (news_old y x R Wx). }
    destruct (KX r jr L3) as [K1 K2].
    split; [apply good_map; exact K1|]. split; [exact (nodup_sub _ _ K2 L4)|].
    intros c Hc. apply L5. eapply elem_of_submseteq; [exact Hc|apply sublist_submseteq, K2].
Qed.
Lemma all_tracks us jus : Forall2 (within lim h0) us (map JMap jus) -> Forall whole us -> Forall owf jus -> forall a ja h,
  jwf ja -> good h a ja -> k0 <= length h -> keeps lim h0 h -> NoDup (news a) ->
  let r := s_merge_all grow a us h in
  keeps lim h0 r.1 /\ k0 <= length r.1
  /\ match r.2, merge_objects ja jus with Some v, Some j => reads r.1 v j | None, None => True | _, _ => False end.
Proof.
  revert us. induction jus as [|ju jus IH]; intros us HU HF HW a ja h Wa Ga Hk HP HN; inversion HU as [|u ? us' ? Ru HU']; subst.
  { cbn. split; [exact HP|]. split; [exact Hk|]. eapply good_reads; eassumption. }
  apply Forall_cons in HF. destruct HF as [Fu HF]. apply Forall_cons in HW. destruct HW as [Wu HW].
  destruct (merge_tracks ja a u (JMap ju) h Wa Ga Ru Fu Hk HP HN) as (S1 & HP1 & S2 & S3). cbn [s_merge_all merge_objects].
  destruct (s_merge grow a u h) as [h1 r]. cbn [fst snd] in S1, HP1, S2, S3.
  destruct (ValueModel.merge ja (JMap ju)) as [jz|] eqn:EM; destruct r as [z|]; try contradiction; cbn [mbind option_bind].
  - destruct S3 as (S3 & S4 & S5). apply IH; try assumption; [|lia]. eapply merge_wf; [exact Wa|exact Wu|exact EM].
  - cbn. split; [exact HP1|]. split; [lia|exact I].
Qed.
End own.

(** Copies are full, and so is what their fields hold. *)
Lemma alloc_ok j : forall h, exists e, (s_alloc j h).1 = h ++ e /\ reads (h ++ e) (s_alloc j h).2 j /\ full (h ++ e) (s_alloc j h).2.
Proof.
  assert (nf : forall h v, (forall a n, ~ field_of v (SList a n)) -> full h v) by (intros h v H a n Hf; destruct (H a n Hf)).
  induction j as [|b|n|f|s|l IH|m IH] using json_rect'; intros h;
    try (exists []; rewrite app_nil_r; (split; [reflexivity|split; [constructor|apply nf; intros ? ? Hf; inversion Hf]])).
  - assert (G : forall h, exists e,
      (s_each s_alloc l h).1 = h ++ e /\ Forall2 (reads (h ++ e)) (s_each s_alloc l h).2 l).
    { clear h. induction IH as [|j l Hj _ IHl]; intros h; [exists []; rewrite app_nil_r; split; [reflexivity|constructor]|].
      destruct (Hj h) as (e1 & E1 & R1 & F1). cbn [s_each]. destruct (s_alloc j h) as [h1 v]. cbn [fst snd] in *. subst h1.
      destruct (IHl (h ++ e1)) as (e2 & E2 & R2).  destruct (s_each s_alloc l (h ++ e1)) as [h2 vs]. cbn [fst snd] in *. subst h2.
      exists (e1 ++ e2). rewrite app_assoc. split; [reflexivity|]. constructor; [apply reads_app, R1|exact R2]. }
    destruct (G h) as (e & E & R). cbn [s_alloc].  destruct (s_each s_alloc l h) as [h1 vs]. cbn [fst snd] in *. subst h1.
    exists (e ++ [vs]). rewrite app_assoc. split; [reflexivity|]. split.
    + econstructor; [rewrite lookup_app_r, Nat.sub_diag by lia; reflexivity|lia|discriminate|]. rewrite firstn_all.
      eapply Forall2_impl; [exact R|]. intros; apply reads_app; assumption.
    + intros a n Hf. inversion Hf; subst. unfold array. rewrite lookup_app_r, Nat.sub_diag by lia. reflexivity.
  - assert (G : forall h, exists e,
      (s_fields s_alloc m h).1 = h ++ e /\ Forall2 (like no_limit (h ++ e)) (s_fields s_alloc m h).2 m /\ Forall (fun x => full (h ++ e) x.2) (s_fields s_alloc m h).2).
    { clear h. induction IH as [|[k j] m Hj _ IHl]; intros h; [exists []; rewrite app_nil_r; split; [reflexivity|split; constructor]|].
      destruct (Hj h) as (e1 & E1 & R1 & F1). cbn [snd] in *. cbn [s_fields]. destruct (s_alloc j h) as [h1 v]. cbn [fst snd] in *. subst h1.
      destruct (IHl (h ++ e1)) as (e2 & E2 & R2 & F2).  destruct (s_fields s_alloc m (h ++ e1)) as [h2 vs]. cbn [fst snd] in *. subst h2.
      exists (e1 ++ e2). rewrite app_assoc. split; [reflexivity|]. split; (constructor; [|assumption]).
      - split; [reflexivity|]. apply reads_app, R1.
      - eapply full_app; [exact R1|exact F1]. }
    destruct (G h) as (e & E & R & F). cbn [s_alloc].  destruct (s_fields s_alloc m h) as [h1 vs]. cbn [fst snd] in *. subst h1.
    exists e. split; [reflexivity|]. split; [constructor; exact R|].
    intros a n Hf. rewrite Forall_forall in F. inversion Hf as [|m0 k x w Hin Hx]; subst. exact (F _ Hin a n Hx).
Qed.
Lemma at_fields_of p : forall v w, at_fields p v = Some w -> field_of v w.
Proof.
  induction p as [|k p IH]; intros v w E; cbn in E; [injection E as <-; constructor|].
  destruct v as [| | | | | |m]; try discriminate. destruct (kget m k) as [x|] eqn:G; cbn in E; [|discriminate].
  apply (field_in m k x); [|auto]. clear - G. induction m as [|[k' y] m IH]; cbn in G; [discriminate|].
  destruct (decide (k = k')) as [->|]; [injection G as ->; left|right; auto].
Qed.
Lemma field_trans v w u : field_of v w -> field_of w u -> field_of v u.
Proof. induction 1 as [|m k x w Hin _ IH]; [auto|]. intros H. econstructor; [exact Hin|auto]. Qed.
