(** Lemmas about the observers of Z-sets, and order independence. *)
From Verif Require Import ZSetModel ZSetSpec ZSetProofs.

Section zset.
Context {DD : Docs}.
Implicit Types (z a b : zset) (k : ident) (d : doc) (c : Z) (es : list (doc * Z)).

Lemma zmult_key z d k : key d = Some k -> zmult z d = Some (zcount z k).
Proof. intros E. unfold zmult. rewrite E. done. Qed.
Lemma zmult_inv z d m : zmult z d = Some m -> exists k, key d = Some k /\ m = zcount z k.
Proof. unfold zmult. destruct (key d) as [k|]; simpl; [|done]. intros [= <-]. eauto. Qed.

(** [fold_left] loops over [counts] as sums over the entries. *)
Lemma entries_counts o z es (g : Z -> Z) : order_ok o -> zwf z -> entries o z = Some es ->
  lsum (fun kc : ident * Z => g kc.2) (o Z [] (counts z)) = lsum (fun e => g e.2) es.
Proof.
  intros Ho W. unfold entries. generalize (o Z [] (counts z)). intros l. revert es.
  induction l as [|[k c] l IH]; intros es; simpl.
  - intros [= <-]. done.
  - destruct (docs z !! k) as [d|]; simpl; [|done].
    destruct (mapM _ l) as [es'|] eqn:E; simpl; [|done].
    intros [= <-]. simpl. rewrite (IH es'); done.
Qed.
Lemma fold_left_sum (g : Z -> Z) (f : Z -> ident * Z -> Z) (l : list (ident * Z)) t :
  (forall t k c, f t (k, c) = t + g c) ->
  fold_left f l t = t + lsum (fun kc : ident * Z => g kc.2) l.
Proof.
  intros Hf. revert t; induction l as [|[k c] l IH]; intros t; simpl; [lia|]. rewrite IH, Hf. lia.
Qed.

Lemma occ_app k ds1 ds2 : occ k (ds1 ++ ds2) = occ k ds1 + occ k ds2.
Proof. apply lsum_app. Qed.
Lemma occ_perm k ds1 ds2 : Permutation (map key ds1) (map key ds2) -> occ k ds1 = occ k ds2.
Proof.
  intros P. apply (lsum_perm (fun x => if decide (x = Some k) then 1 else 0)) in P.
  rewrite !lsum_map in P. done.
Qed.

Lemma lsum_length {A} (l : list A) : lsum (fun _ => 1) l = Z.of_nat (length l).
Proof. induction l as [|x l IH]; simpl lsum; simpl length; lia. Qed.

Lemma observers_ok o z : order_ok o -> zwf z -> observers_agree o z.
Proof.
  intros Ho W. unfold observers_agree, zlist, zdocuments, zunique_documents.
  destruct (entries_ok o z Ho W) as (es & E & H1 & H2 & H3 & H4).
  assert (Hmu : forall d c, In (d, c) es -> exists k, key d = Some k /\ zcount z k = c /\ c <> 0).
  { intros d c Hin. destruct (H1 _ _ Hin) as (k & Hk & Hc & _). exists k. unfold zcount. rewrite Hc.
    split; [done|]. split; [done|]. eapply wf_nz; eauto. }
  assert (Hall : forall k m, zcount z k = m -> m <> 0 -> exists d', In (d', m) es /\ key d' = Some k).
  { intros k m Hm Hn. unfold zcount in Hm. destruct (counts z !! k) as [c|] eqn:Ec; simpl in Hm; [|lia]. subst c.
    destruct (proj2 (wf_lookup_docs z k W)) as [d' Hd]; [eauto|]. exists d'. split; [eauto|].
    eapply wf_key; eauto. }
  rewrite E; simpl. eexists es, _, _. do 3 (split; [reflexivity|]).
  assert (Huniq : forall d, In d (flat_map (fun '(d, c) => if 0 <? c then [d] else []) es) <-> exists c, In (d, c) es /\ 0 < c).
  { intros d. rewrite in_flat_map. split.
    - intros ([d' c'] & Hin & Hd). destruct (Z.ltb_spec 0 c'); simpl in Hd; [|done].
      destruct Hd as [->|[]]. eauto.
    - intros (c & Hin & Hc). exists (d, c). split; [done|]. apply Z.ltb_lt in Hc. rewrite Hc. left; done. }
  split; [done|]. split.
  { intros d c Hin. apply Hmu in Hin as (k & Hk & Hm & Hn). rewrite (zmult_key _ _ _ Hk). split; congruence. }
  split.
  { intros d c Hz Hn. apply zmult_inv in Hz as (k & Hk & ->). destruct (Hall k _ eq_refl Hn) as (d' & ? & ?).
    exists d'. split; [done|]. congruence. }
  split.
  { intros d k m Hk Hm. rewrite (zmult_key _ _ _ Hk) in Hm. injection Hm as <-.
    rewrite <- H4. rewrite <- (esum_map_NoDup (Z.max 0) es k eq_refl H3).
    unfold occ, esum. rewrite lsum_flat_map, lsum_map. apply lsum_ext. intros [d' c'] _. simpl.
    destruct (Z.leb_spec c' 0); simpl.
    - case_decide; lia.
    - rewrite lsum_repeat. case_decide; lia. }
  split.
  { intros d Hin. apply in_flat_map in Hin as ([d' c'] & Hin & Hd).
    destruct (Z.leb_spec c' 0); [done|]. apply repeat_spec in Hd as ->.
    apply Hmu in Hin as (k & Hk & <- & ?). exists (zcount z k). split; [by apply zmult_key|lia]. }
  split.
  { clear -H3. induction es as [|[d c] es IH]; simpl; [constructor|].
    simpl in H3. apply NoDup_cons in H3 as [Hn H3].
    destruct (0 <? c); simpl; [|auto]. constructor; [|auto].
    intros Hin. apply Hn. apply elem_of_list_In, in_map_iff in Hin as (d' & Hk & Hin).
    apply in_flat_map in Hin as ([d'' c''] & Hin & Hd). destruct (0 <? c''); [|done].
    destruct Hd as [->|[]]. apply elem_of_list_In, in_map_iff. exists (d', c''). done. }
  split.
  { intros d Hin. apply Huniq in Hin as (c & Hin & Hc). apply Hmu in Hin as (k & Hk & <- & _).
    exists (zcount z k). split; [by apply zmult_key|done]. }
  split.
  { intros d m Hz Hm. apply zmult_inv in Hz as (k & Hk & ->). destruct (Hall k _ eq_refl) as (d' & ? & ?); [lia|].
    exists d'. split; [|congruence]. apply Huniq. eauto. }
  split.
  { unfold zsize. rewrite (fold_left_sum (Z.max 0)).
    2:{ intros t k c. destruct (Z.ltb_spec 0 c); lia. }
    rewrite (entries_counts _ _ _ (Z.max 0) Ho W E). clear.
    induction es as [|[d c] es IH]; simpl; [done|]. rewrite app_length.
    destruct (Z.leb_spec c 0); simpl; rewrite ?repeat_length; lia. }
  split.
  { unfold ztotal_size. rewrite (fold_left_sum Z.abs).
    2:{ intros t k c. destruct (Z.ltb_spec 0 c); lia. }
    rewrite (entries_counts _ _ _ Z.abs Ho W E). done. }
  split.
  { unfold zunique_count. rewrite (fold_left_sum (fun c => if 0 <? c then 1 else 0)).
    2:{ intros t k c. destruct (Z.ltb_spec 0 c); lia. }
    rewrite (entries_counts _ _ _ (fun c => if 0 <? c then 1 else 0) Ho W E). clear.
    induction es as [|[d c] es IH]; simpl; [done|]. rewrite app_length.
    destruct (Z.ltb_spec 0 c); simpl; lia. }
  split.
  { unfold zis_zero. rewrite bool_decide_eq_true. split.
    - intros E0 d m Hz. apply zmult_inv in Hz as (k & _ & ->). unfold zcount. by rewrite E0, lookup_empty.
    - intros Hz. apply map_eq. intros k. rewrite lookup_empty.
      destruct (counts z !! k) as [c|] eqn:Ec; [|done]. exfalso.
      destruct (proj2 (wf_lookup_docs z k W)) as [d Hd]; [eauto|].
      apply (wf_nz _ W k c Ec). apply (Hz d). rewrite (zmult_key z d k) by (eapply wf_key; eauto).
      unfold zcount. by rewrite Ec. }
  intros d b. unfold zcontains. destruct (zmult z d) as [m|]; simpl.
  - split; [intros [= <-]; eauto|]. intros (? & [= <-] & ->). done.
  - split; [done|]. by intros (? & ? & _).
Qed.

(** ** Order independence *)
Lemma add_all_perm z es1 es2 : zwf z -> Permutation es1 es2 -> res_eq (add_all z es1) (add_all z es2).
Proof.
  intros W P. destruct (add_all z es1) as [z1|] eqn:E1, (add_all z es2) as [z2|] eqn:E2; simpl; try done.
  - apply add_all_spec in E1 as [_ M1], E2 as [_ M2]; try done. intros k. rewrite M1, M2.
    f_equal. by apply lsum_perm.
  - apply add_all_None in E2. rewrite <- P in E2. apply (add_all_None z) in E2. congruence.
  - apply add_all_None in E1. rewrite P in E1. apply (add_all_None z) in E1. congruence.
Qed.

Lemma zadd_order o1 o2 a b : order_ok o1 -> order_ok o2 -> zwf a -> zwf b -> res_eq (zadd o1 a b) (zadd o2 a b).
Proof.
  intros. destruct (zadd_spec o1 a b) as (z1 & -> & _ & M1); auto.
  destruct (zadd_spec o2 a b) as (z2 & -> & _ & M2); auto. intros k. by rewrite M1, M2.
Qed.
Lemma zsub_order o1 o2 a b : order_ok o1 -> order_ok o2 -> zwf a -> zwf b -> res_eq (zsub o1 a b) (zsub o2 a b).
Proof.
  intros. destruct (zsub_spec o1 a b) as (z1 & -> & _ & M1); auto.
  destruct (zsub_spec o2 a b) as (z2 & -> & _ & M2); auto. intros k. by rewrite M1, M2.
Qed.
Lemma zdistinct_order o1 o2 a : order_ok o1 -> order_ok o2 -> zwf a -> res_eq (zdistinct o1 a) (zdistinct o2 a).
Proof.
  intros. destruct (zdistinct_spec o1 a) as (z1 & -> & _ & M1); auto.
  destruct (zdistinct_spec o2 a) as (z2 & -> & _ & M2); auto. intros k. by rewrite M1, M2.
Qed.
Lemma zunique_order o1 o2 a : order_ok o1 -> order_ok o2 -> zwf a -> res_eq (zunique o1 a) (zunique o2 a).
Proof.
  intros. destruct (zunique_spec o1 a) as (z1 & -> & _ & M1); auto.
  destruct (zunique_spec o2 a) as (z2 & -> & _ & M2); auto. intros k. by rewrite M1, M2.
Qed.

Lemma std_order_ok : order_ok std_order.
Proof. intros V p m. done. Qed.
Lemma osub_ok o n : order_ok o -> order_ok (osub o n).
Proof. intros Ho V p m. apply Ho. Qed.

(** ** The statements used by the property file *)
Lemma c01_add o a b : order_ok o -> reachable a -> reachable b ->
  exists s, zadd o a b = Some s /\ reachable s /\
    forall d ma mb, zmult a d = Some ma -> zmult b d = Some mb -> zmult s d = Some (ma + mb).
Proof.
  intros Ho Ra Rb. destruct (zadd_spec o a b) as (s & E & _ & M); auto using reachable_wf.
  exists s. split; [done|]. split; [eauto using r_add|]. intros d ma mb.
  destruct (key d) as [k|] eqn:Hk.
  - rewrite !(zmult_key _ _ _ Hk). intros [= <-] [= <-]. by rewrite M.
  - unfold zmult; by rewrite Hk.
Qed.
Lemma c01_sub o a b : order_ok o -> reachable a -> reachable b ->
  exists s, zsub o a b = Some s /\ reachable s /\
    forall d ma mb, zmult a d = Some ma -> zmult b d = Some mb -> zmult s d = Some (ma - mb).
Proof.
  intros Ho Ra Rb. destruct (zsub_spec o a b) as (s & E & _ & M); auto using reachable_wf.
  exists s. split; [done|]. split; [eauto using r_sub|]. intros d ma mb.
  destruct (key d) as [k|] eqn:Hk.
  - rewrite !(zmult_key _ _ _ Hk). intros [= <-] [= <-]. by rewrite M.
  - unfold zmult; by rewrite Hk.
Qed.
Lemma zeq_same_mult a b : zeq a b -> same_mult a b.
Proof. intros E d. unfold zmult. destruct (key d) as [k|]; simpl; [|done]. f_equal. apply E. Qed.
Lemma same_mult_zeq a b : zwf a -> zwf b -> same_mult a b -> zeq a b.
Proof.
  intros Wa Wb E k. destruct (docs a !! k) as [d|] eqn:Ea.
  { assert (Hk : key d = Some k) by (eapply (wf_key _ Wa); eauto).
    specialize (E d). rewrite !(zmult_key _ _ _ Hk) in E. congruence. }
  destruct (docs b !! k) as [d|] eqn:Eb.
  { assert (Hk : key d = Some k) by (eapply (wf_key _ Wb); eauto).
    specialize (E d). rewrite !(zmult_key _ _ _ Hk) in E. congruence. }
  unfold zcount.
  destruct (counts a !! k) eqn:Ca.
  { destruct (proj2 (wf_lookup_docs a k Wa)); [eauto|congruence]. }
  destruct (counts b !! k) eqn:Cb; [|done].
  destruct (proj2 (wf_lookup_docs b k Wb)); [eauto|congruence].
Qed.

Lemma c01_comm o1 o2 a b s1 s2 : order_ok o1 -> order_ok o2 -> reachable a -> reachable b ->
  zadd o1 a b = Some s1 -> zadd o2 b a = Some s2 -> same_mult s1 s2.
Proof.
  intros H1 H2 Ra Rb E1 E2. apply zeq_same_mult. intros k.
  destruct (zadd_spec o1 a b) as (s & E & _ & M); auto using reachable_wf.
  destruct (zadd_spec o2 b a) as (s' & E' & _ & M'); auto using reachable_wf.
  assert (s = s1) as -> by congruence. assert (s' = s2) as -> by congruence.
  rewrite M, M'. lia.
Qed.
Lemma c01_assoc o1 o2 o3 o4 a b (c : zset) ab abc bc abc' :
  order_ok o1 -> order_ok o2 -> order_ok o3 -> order_ok o4 ->
  reachable a -> reachable b -> reachable c ->
  zadd o1 a b = Some ab -> zadd o2 ab c = Some abc ->
  zadd o3 b c = Some bc -> zadd o4 a bc = Some abc' -> same_mult abc abc'.
Proof.
  intros H1 H2 H3 H4 Ra Rb Rc E1 E2 E3 E4. apply zeq_same_mult. intros k.
  destruct (zadd_spec o1 a b) as (s1 & F1 & W1 & M1); auto using reachable_wf.
  destruct (zadd_spec o3 b c) as (s3 & F3 & W3 & M3); auto using reachable_wf.
  assert (s1 = ab) as -> by congruence. assert (s3 = bc) as -> by congruence.
  destruct (zadd_spec o2 ab c) as (s2 & F2 & _ & M2); auto using reachable_wf.
  destruct (zadd_spec o4 a bc) as (s4 & F4 & _ & M4); auto using reachable_wf.
  assert (s2 = abc) as -> by congruence. assert (s4 = abc') as -> by congruence.
  rewrite M2, M4, M1, M3. lia.
Qed.
Lemma c01_neutral o a : order_ok o -> reachable a ->
  (exists s, zadd o a zempty = Some s /\ same_mult s a)
  /\ (exists s, zadd o zempty a = Some s /\ same_mult s a)
  /\ (exists s, zadd_ptr o a None = Some s /\ same_mult s a)
  /\ (exists s, zsub_ptr o a None = Some s /\ same_mult s a).
Proof.
  intros Ho Ra. pose proof (reachable_wf _ Ra) as W.
  split; [|split; [|split]].
  - destruct (zadd_spec o a zempty) as (s & E & _ & M); auto using wf_empty.
    exists s. split; [done|]. apply zeq_same_mult. intros k. rewrite M, mult_empty. lia.
  - destruct (zadd_spec o zempty a) as (s & E & _ & M); auto using wf_empty.
    exists s. split; [done|]. apply zeq_same_mult. intros k. rewrite M, mult_empty. lia.
  - exists a. simpl. rewrite deep_copy_wf by done. done.
  - exists a. simpl. rewrite deep_copy_wf by done. done.
Qed.
Lemma c01_inverse o a : order_ok o -> reachable a -> exists s, zsub o a a = Some s /\ zis_zero s = true.
Proof.
  intros Ho Ra. destruct (zsub_spec o a a) as (s & E & W & M); auto using reachable_wf.
  exists s. split; [done|]. destruct (observers_ok o s Ho W) as (es & ds & us & H).
  destruct H as (_&_&_&_&_&_&_&_&_&_&_&_&_&_&[_ H]&_). apply H.
  intros d m Hm. apply zmult_inv in Hm as (k & _ & ->). rewrite M. lia.
Qed.

(** ** Distinct and Unique *)
Lemma c04_distinct o a : order_ok o -> reachable a ->
  exists s, zdistinct o a = Some s /\ reachable s /\
    forall d m, zmult a d = Some m -> zmult s d = Some (if 0 <? m then 1 else 0).
Proof.
  intros Ho Ra. destruct (zdistinct_spec o a) as (s & E & _ & M); auto using reachable_wf.
  exists s. split; [done|]. split; [eauto using r_distinct|].
  intros d m Hm. apply zmult_inv in Hm as (k & Hk & ->). rewrite (zmult_key _ _ _ Hk). by rewrite M.
Qed.
Lemma c04_unique o a : order_ok o -> reachable a ->
  exists s, zunique o a = Some s /\ reachable s /\
    forall d m, zmult a d = Some m -> zmult s d = Some (Z.sgn m).
Proof.
  intros Ho Ra. destruct (zunique_spec o a) as (s & E & _ & M); auto using reachable_wf.
  exists s. split; [done|]. split; [eauto using r_unique|].
  intros d m Hm. apply zmult_inv in Hm as (k & Hk & ->). rewrite (zmult_key _ _ _ Hk). by rewrite M.
Qed.
Lemma c04_distinct_idem o1 o2 a s s' : order_ok o1 -> order_ok o2 -> reachable a ->
  zdistinct o1 a = Some s -> zdistinct o2 s = Some s' -> same_mult s s'.
Proof.
  intros H1 H2 Ra E1 E2. apply zeq_same_mult.
  destruct (zdistinct_spec o1 a) as (t & F & W & M); auto using reachable_wf.
  assert (t = s) as -> by congruence.
  destruct (zdistinct_spec o2 s) as (t & F' & W' & M'); auto. assert (t = s') as -> by congruence.
  intros k. rewrite M', !M. destruct (0 <? zcount a k); done.
Qed.
Lemma c04_unique_idem o1 o2 a s s' : order_ok o1 -> order_ok o2 -> reachable a ->
  zunique o1 a = Some s -> zunique o2 s = Some s' -> same_mult s s'.
Proof.
  intros H1 H2 Ra E1 E2. apply zeq_same_mult.
  destruct (zunique_spec o1 a) as (t & F & W & M); auto using reachable_wf.
  assert (t = s) as -> by congruence.
  destruct (zunique_spec o2 s) as (t & F' & W' & M'); auto. assert (t = s') as -> by congruence.
  intros k. rewrite M', !M. destruct (zcount a k); done.
Qed.
Lemma c04_distinct_pos o a s : order_ok o -> reachable a ->
  (forall d m, zmult a d = Some m -> 0 <= m) -> zdistinct o a = Some s ->
  forall d, zcontains s d = zcontains a d /\ (zcontains a d = Some true <-> exists m, zmult a d = Some m /\ m <> 0).
Proof.
  intros Ho Ra Hp E d. destruct (c04_distinct o a Ho Ra) as (t & E' & _ & M).
  assert (t = s) as -> by congruence. unfold zcontains.
  destruct (zmult a d) as [m|] eqn:Em.
  - rewrite (M _ _ Em). simpl. specialize (Hp _ _ Em). split.
    + destruct (Z.ltb_spec 0 m); done.
    + split.
      * intros [= H]. exists m. split; [done|]. apply Z.ltb_lt in H. lia.
      * intros (m' & [= <-] & ?). f_equal. apply Z.ltb_lt. lia.
  - unfold zmult in *. destruct (key d); [done|]. simpl. split; [done|].
    split; [done|]. by intros (? & ? & _).
Qed.

(** ** Building in any order *)
Lemma c03_build es1 es2 : Permutation es1 es2 ->
  (add_all zempty es1 = None <-> add_all zempty es2 = None) /\
  forall z1 z2, add_all zempty es1 = Some z1 -> add_all zempty es2 = Some z2 -> same_mult z1 z2.
Proof.
  intros P. pose proof (add_all_perm zempty _ _ wf_empty P) as R.
  destruct (add_all zempty es1), (add_all zempty es2); simpl in R; try done.
  split; [done|]. intros ? ? [= <-] [= <-]. by apply zeq_same_mult.
Qed.
Lemma c03_order o1 o2 a b : order_ok o1 -> order_ok o2 -> reachable a -> reachable b ->
  (exists s1 s2, zadd o1 a b = Some s1 /\ zadd o2 a b = Some s2 /\ same_mult s1 s2)
  /\ (exists s1 s2, zsub o1 a b = Some s1 /\ zsub o2 a b = Some s2 /\ same_mult s1 s2)
  /\ (exists s1 s2, zdistinct o1 a = Some s1 /\ zdistinct o2 a = Some s2 /\ same_mult s1 s2)
  /\ (exists s1 s2, zunique o1 a = Some s1 /\ zunique o2 a = Some s2 /\ same_mult s1 s2).
Proof.
  intros H1 H2 Ra Rb. apply reachable_wf in Ra, Rb.
  split; [|split; [|split]].
  - destruct (zadd_spec o1 a b) as (s1 & E1 & _ & M1), (zadd_spec o2 a b) as (s2 & E2 & _ & M2); auto.
    exists s1, s2. split; [done|]. split; [done|]. apply zeq_same_mult. intros k; by rewrite M1, M2.
  - destruct (zsub_spec o1 a b) as (s1 & E1 & _ & M1), (zsub_spec o2 a b) as (s2 & E2 & _ & M2); auto.
    exists s1, s2. split; [done|]. split; [done|]. apply zeq_same_mult. intros k; by rewrite M1, M2.
  - destruct (zdistinct_spec o1 a) as (s1 & E1 & _ & M1), (zdistinct_spec o2 a) as (s2 & E2 & _ & M2); auto.
    exists s1, s2. split; [done|]. split; [done|]. apply zeq_same_mult. intros k; by rewrite M1, M2.
  - destruct (zunique_spec o1 a) as (s1 & E1 & _ & M1), (zunique_spec o2 a) as (s2 & E2 & _ & M2); auto.
    exists s1, s2. split; [done|]. split; [done|]. apply zeq_same_mult. intros k; by rewrite M1, M2.
Qed.
Lemma add_all_reachable es : forall z z', reachable z -> add_all z es = Some z' -> reachable z'.
Proof.
  induction es as [|[d c] es IH]; simpl; intros z z' R.
  - by intros [= <-].
  - destruct (add_doc z d c) as [z1|] eqn:E; simpl; [|done]. apply IH. eapply r_adddoc; eauto.
Qed.
End zset.
