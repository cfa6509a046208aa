(** Lemmas about Z-sets. *)
From Verif Require Import ZSetModel ZSetSpec.

Section lsum.
Context {A : Type}.
Implicit Types (f g : A -> Z) (l : list A).

Lemma lsum_app f l1 l2 : lsum f (l1 ++ l2) = lsum f l1 + lsum f l2.
Proof. induction l1; simpl; lia. Qed.
Lemma lsum_perm f l1 l2 : Permutation l1 l2 -> lsum f l1 = lsum f l2.
Proof. induction 1; simpl; lia. Qed.
Lemma lsum_ext f g l : (forall x, In x l -> f x = g x) -> lsum f l = lsum g l.
Proof. induction l as [|x l IH]; simpl; intros E; [done|]. rewrite E, IH; auto. Qed.
Lemma lsum_plus f g l : lsum (fun x => f x + g x) l = lsum f l + lsum g l.
Proof. induction l; simpl; lia. Qed.
Lemma lsum_minus f g l : lsum (fun x => f x - g x) l = lsum f l - lsum g l.
Proof. induction l; simpl; lia. Qed.
Lemma lsum_scale c f l : lsum (fun x => c * f x) l = c * lsum f l.
Proof. induction l; simpl; lia. Qed.
Lemma lsum_scale_r c f l : lsum (fun x => f x * c) l = lsum f l * c.
Proof. induction l; simpl; lia. Qed.
Lemma lsum_zero f l : (forall x, In x l -> f x = 0) -> lsum f l = 0.
Proof. intros E; induction l as [|x l IH]; simpl; [done|]. rewrite E by (left; done).
  rewrite IH; [done|]. intros; apply E; right; done. Qed.
Lemma lsum_nonneg f l : (forall x, In x l -> 0 <= f x) -> 0 <= lsum f l.
Proof. induction l as [|x l IH]; simpl; intros E; [lia|].
  specialize (IH (fun y Hy => E y (or_intror Hy))). specialize (E x (or_introl eq_refl)). lia. Qed.
End lsum.

Lemma lsum_map {A B} (f : B -> Z) (h : A -> B) l : lsum f (map h l) = lsum (fun x => f (h x)) l.
Proof. induction l; simpl; congruence. Qed.
Lemma lsum_flat_map {A B} (f : B -> Z) (h : A -> list B) l :
  lsum f (flat_map h l) = lsum (fun x => lsum f (h x)) l.
Proof. induction l; simpl; [done|]. rewrite lsum_app; lia. Qed.
Lemma lsum_swap {A B} (f : A -> B -> Z) la lb :
  lsum (fun a => lsum (f a) lb) la = lsum (fun b => lsum (fun a => f a b) la) lb.
Proof.
  induction la as [|a la IH]; simpl.
  - symmetry; apply lsum_zero; done.
  - rewrite IH, lsum_plus. done.
Qed.
Lemma lsum_filter {A} (f : A -> Z) (p : A -> bool) l :
  lsum f (List.filter p l) = lsum (fun x => if p x then f x else 0) l.
Proof. induction l as [|x l IH]; simpl; [done|]. destruct (p x); simpl; lia. Qed.
Lemma lsum_repeat {A} (f : A -> Z) x n : lsum f (repeat x n) = Z.of_nat n * f x.
Proof. induction n; simpl lsum; [done|]. simpl repeat. simpl lsum. lia. Qed.

Section zset.
Context {DD : Docs}.
Implicit Types (z a b : zset) (k : ident) (d : doc) (c : Z) (es : list (doc * Z)).

Lemma zeq_refl z : zeq z z. Proof. done. Qed.
Lemma zeq_sym a b : zeq a b -> zeq b a. Proof. intros E k; auto. Qed.
Lemma zeq_trans a b z : zeq a b -> zeq b z -> zeq a z. Proof. intros E F k; rewrite E; auto. Qed.
#[global] Instance zeq_equiv : Equivalence zeq.
Proof. split; [exact zeq_refl|exact zeq_sym|exact zeq_trans]. Qed.

Lemma wf_zeq_counts a b : zwf a -> zwf b -> zeq a b -> counts a = counts b.
Proof.
  intros Wa Wb E. apply map_eq. intros k. specialize (E k). unfold zcount in E.
  destruct (counts a !! k) as [x|] eqn:Ea, (counts b !! k) as [y|] eqn:Eb; simpl in *; subst; try done.
  - exfalso. eapply (wf_nz _ Wa); eauto.
  - exfalso. eapply (wf_nz _ Wb); eauto.
Qed.

Lemma wf_empty : zwf zempty.
Proof. split; simpl. - by rewrite !dom_empty_L. - intros k c; rewrite lookup_empty; done.
  - intros k c; rewrite lookup_empty; done. Qed.
Lemma mult_empty k : zcount zempty k = 0.
Proof. unfold zcount; simpl. by rewrite lookup_empty. Qed.

Lemma wf_lookup_docs z k : zwf z -> is_Some (docs z !! k) <-> is_Some (counts z !! k).
Proof. intros W. rewrite <- !elem_of_dom. by rewrite (wf_dom _ W). Qed.

Lemma deep_copy_wf z : zwf z -> deep_copy z = z.
Proof.
  intros W. destruct z as [ds cs]. unfold deep_copy; simpl. f_equal.
  apply map_eq; intros k. rewrite map_lookup_imap. simpl.
  pose proof (wf_lookup_docs _ k W) as E. simpl in E.
  destruct (ds !! k) as [d|] eqn:Ed, (cs !! k) as [c|] eqn:Ec; simpl; try done.
  - destruct (proj1 E) as [? ?]; [eauto|done].
  - destruct (proj2 E) as [? ?]; [eauto|done].
Qed.
Lemma shallow_copy_id z : shallow_copy z = z.
Proof. by destruct z. Qed.

(** ** add_doc *)
Lemma add_doc_success z d c : add_doc z d c = None <-> (c <> 0 /\ key d = None).
Proof.
  unfold add_doc. destruct (Z.eqb_spec c 0) as [->|Hc]; [split; [done|tauto]|].
  destruct (key d) as [k|]; [|split; auto].
  split; [|by intros [? ?]].
  destruct (counts z !! k); case_match; done.
Qed.

Lemma add_doc_spec z d c z' : zwf z -> add_doc z d c = Some z' ->
  zwf z' /\ forall k, zcount z' k = zcount z k + (if decide (key d = Some k) then c else 0).
Proof.
  intros W. unfold add_doc. destruct (Z.eqb_spec c 0) as [->|Hc].
  { intros [= <-]. split; [done|]. intros k. case_decide; lia. }
  destruct (key d) as [k|] eqn:Hk; [|done].
  assert (Hm : forall k', (if decide (Some k = Some k') then c else 0) = if decide (k = k') then c else 0).
  { intros k'. repeat case_decide; congruence. }
  destruct (counts z !! k) as [c0|] eqn:Ec.
  - rewrite lookup_insert; simpl. destruct (Z.eqb_spec (c0 + c) 0) as [H0|H0]; intros [= <-].
    + split.
      * split; simpl.
        -- rewrite !dom_delete_L, dom_insert_L, (wf_dom _ W). set_solver.
        -- intros k' c'. rewrite delete_insert_delete. rewrite lookup_delete_Some; intros [? ?].
           eapply wf_nz; eauto.
        -- intros k' d'. rewrite lookup_delete_Some; intros [? ?]. eapply wf_key; eauto.
      * intros k'. rewrite Hm. unfold zcount; simpl. rewrite delete_insert_delete.
        case_decide as Hd; [subst k'|]. rewrite lookup_delete, Ec; simpl; lia.
        rewrite lookup_delete_ne by done. lia.
    + split.
      * split; simpl.
        -- rewrite dom_insert_L, (wf_dom _ W). apply elem_of_dom_2 in Ec. set_solver.
        -- intros k' c'. rewrite lookup_insert_Some. intros [[? ?]|[? ?]]; [lia|]. eapply wf_nz; eauto.
        -- apply wf_key; done.
      * intros k'. rewrite Hm. unfold zcount; simpl.
        case_decide; [subst k'; rewrite lookup_insert, Ec; simpl; lia|].
        rewrite lookup_insert_ne by done. lia.
  - rewrite lookup_insert; simpl. destruct (Z.eqb_spec c 0) as [H0|H0]; [done|]. intros [= <-].
    split.
    + split; simpl.
      * rewrite !dom_insert_L, (wf_dom _ W). done.
      * intros k' c'. rewrite lookup_insert_Some. intros [[? ?]|[? ?]]; [lia|]. eapply wf_nz; eauto.
      * intros k' d'. rewrite lookup_insert_Some. intros [[? ?]|[? ?]]; [congruence|]. eapply wf_key; eauto.
    + intros k'. rewrite Hm. unfold zcount; simpl.
      case_decide; [subst k'; rewrite lookup_insert, Ec; simpl; lia|].
      rewrite lookup_insert_ne by done. lia.
Qed.

(** ** add_all *)
Lemma add_all_None z es : add_all z es = None <-> Exists (fun e => e.2 <> 0 /\ key e.1 = None) es.
Proof.
  revert z; induction es as [|[d c] es IH]; intros z; simpl.
  - split; [done|]. inversion 1.
  - rewrite Exists_cons; simpl. destruct (add_doc z d c) as [z1|] eqn:E; simpl.
    + rewrite IH. split; [tauto|]. intros [Hb|]; [|done].
      apply (add_doc_success z) in Hb. congruence.
    + apply add_doc_success in E. tauto.
Qed.
Lemma add_all_is_Some z es : (forall d c, In (d, c) es -> is_Some (key d)) -> is_Some (add_all z es).
Proof.
  intros Hk. destruct (add_all z es) eqn:E; [eauto|].
  apply add_all_None in E. apply Exists_exists in E as ([d c] & Hin & _ & Hn). simpl in *.
  apply elem_of_list_In, Hk in Hin. destruct Hin; congruence.
Qed.

Lemma add_all_spec z es z' : zwf z -> add_all z es = Some z' ->
  zwf z' /\ forall k, zcount z' k = zcount z k + esum es k.
Proof.
  revert z; induction es as [|[d c] es IH]; intros z W; simpl.
  - intros [= <-]. split; [done|]. intros k; unfold esum; simpl; lia.
  - destruct (add_doc z d c) as [z1|] eqn:E; simpl; [|done]. intros E'.
    apply add_doc_spec in E as [W1 M1]; [|done].
    apply IH in E' as [W' M']; [|done]. split; [done|].
    intros k. rewrite M', M1. unfold esum; simpl. lia.
Qed.

(** ** entries *)
Lemma entries_ok o z : order_ok o -> zwf z ->
  exists es, entries o z = Some es
    /\ (forall d c, In (d, c) es -> exists k, key d = Some k /\ counts z !! k = Some c /\ docs z !! k = Some d)
    /\ (forall k d c, counts z !! k = Some c -> docs z !! k = Some d -> In (d, c) es)
    /\ NoDup (map (fun e => key e.1) es)
    /\ forall k, esum es k = zcount z k.
Proof.
  intros Ho W. unfold entries. specialize (Ho Z [] (counts z)).
  set (l := o Z [] (counts z)) in *.
  assert (Hl : forall k c, In (k, c) l <-> counts z !! k = Some c).
  { intros k c. rewrite <- elem_of_list_In. rewrite Ho. apply elem_of_map_to_list. }
  assert (Hnd : NoDup (l.*1)).
  { rewrite Ho. apply NoDup_fst_map_to_list. }
  assert (Hsum : forall k, lsum (fun e => if decide (e.1 = k) then e.2 else 0) l = zcount z k).
  { intros k. rewrite (lsum_perm _ _ _ Ho). clear. unfold zcount.
    induction (counts z) as [|i x m Hi IH] using map_ind.
    - by rewrite map_to_list_empty, lookup_empty.
    - rewrite (lsum_perm _ _ _ (map_to_list_insert m i x Hi)). simpl.
      rewrite IH. case_decide as Hd.
      + subst i. rewrite lookup_insert, Hi. simpl. lia.
      + by rewrite lookup_insert_ne. }
  clearbody l. clear Ho o.
  assert (G : forall l', (forall k c, In (k, c) l' -> In (k, c) l) -> NoDup (l'.*1) ->
    exists es, mapM (fun '(k, c) => (fun d => (d, c)) <$> docs z !! k) l' = Some es
    /\ (forall d c, In (d, c) es -> exists k, key d = Some k /\ counts z !! k = Some c /\ docs z !! k = Some d /\ In (k,c) l')
    /\ (forall k d c, In (k, c) l' -> docs z !! k = Some d -> In (d, c) es)
    /\ NoDup (map (fun e => key e.1) es)
    /\ forall k, esum es k = lsum (fun e => if decide (e.1 = k) then e.2 else 0) l').
  { induction l' as [|[k c] l' IH]; intros Hsub Hn.
    - exists []. simpl. repeat split; try done. constructor.
    - simpl in Hn. apply NoDup_cons in Hn as [Hni Hn].
      destruct IH as (es & Em & H1 & H2 & H3 & H4); [intros; apply Hsub; right; done|done|].
      assert (Hc : counts z !! k = Some c) by (apply Hl, Hsub; left; done).
      destruct (proj2 (wf_lookup_docs z k W)) as [d Hd]; [eauto|].
      assert (Hkd : key d = Some k) by (eapply wf_key; eauto).
      exists ((d, c) :: es). simpl. rewrite Hd. simpl. unfold mapM in Em |- *. rewrite Em. simpl.
      repeat split.
      + intros d' c' [[= -> ->]|Hin]; [exists k; auto|].
        apply H1 in Hin as (k' & ? & ? & ? & ?). exists k'. auto.
      + intros k' d' c' [[= -> ->]|Hin] Hd'; [left; congruence|right; eauto].
      + constructor; [|done]. rewrite elem_of_list_In, in_map_iff. intros ([d' c'] & Hkk & Hin). simpl in Hkk.
        apply H1 in Hin as (k' & ? & ? & ? & Hin'). assert (k' = k) as -> by congruence.
        apply Hni. apply elem_of_list_In, in_map_iff. exists (k, c'). done.
      + intros k'. unfold esum in *. simpl. rewrite H4. rewrite Hkd.
        repeat case_decide; congruence. }
  destruct (G l) as (es & E1 & E2 & E3 & E4 & E5); [auto|done|].
  exists es. repeat split; auto.
  - intros d c Hin. apply E2 in Hin as (k & ? & ? & ? & ?). eauto.
  - intros k d c Hc Hd. eapply E3; eauto. by apply Hl.
  - intros k. rewrite E5. apply Hsum.
Qed.

(** The entries of a well-formed Z-set as a total function, for reasoning. *)
Lemma entries_inv o z es : order_ok o -> zwf z -> entries o z = Some es ->
  (forall d c, In (d, c) es -> exists k, key d = Some k /\ counts z !! k = Some c /\ docs z !! k = Some d)
  /\ (forall k d c, counts z !! k = Some c -> docs z !! k = Some d -> In (d, c) es)
  /\ NoDup (map (fun e => key e.1) es)
  /\ forall k, esum es k = zcount z k.
Proof.
  intros Ho W E. destruct (entries_ok o z Ho W) as (es' & E' & ?).
  rewrite E' in E. injection E as <-. done.
Qed.

Lemma entries_keyed o z es : order_ok o -> zwf z -> entries o z = Some es ->
  forall d c, In (d, c) es -> is_Some (key d).
Proof. intros Ho W E d c Hin. apply (entries_inv o z es Ho W E) in Hin as (k & ? & _). eauto. Qed.

Lemma esum_app es1 es2 k : esum (es1 ++ es2) k = esum es1 k + esum es2 k.
Proof. apply lsum_app. Qed.
Lemma esum_neg es k : esum (map (fun '(d, c) => (d, - c)) es) k = - esum es k.
Proof. unfold esum. rewrite lsum_map. induction es as [|[d c] es IH]; simpl in *; [done|].
  rewrite IH. case_decide; lia. Qed.

(** ** Add and Subtract *)
Lemma zadd_spec o a b : order_ok o -> zwf a -> zwf b ->
  exists z, zadd o a b = Some z /\ zwf z /\ forall k, zcount z k = zcount a k + zcount b k.
Proof.
  intros Ho Wa Wb. unfold zadd. destruct (entries_ok o b Ho Wb) as (es & E & H1 & H2 & H3 & H4).
  rewrite E; simpl. rewrite deep_copy_wf by done.
  destruct (add_all_is_Some a es) as [z Ez].
  { intros d c Hin. apply H1 in Hin as (k & ? & _). eauto. }
  exists z. split; [done|]. apply add_all_spec in Ez as [W M]; [|done].
  split; [done|]. intros k. rewrite M, H4. done.
Qed.
Lemma zsub_spec o a b : order_ok o -> zwf a -> zwf b ->
  exists z, zsub o a b = Some z /\ zwf z /\ forall k, zcount z k = zcount a k - zcount b k.
Proof.
  intros Ho Wa Wb. unfold zsub. destruct (entries_ok o b Ho Wb) as (es & E & H1 & H2 & H3 & H4).
  rewrite E; simpl. rewrite deep_copy_wf by done.
  destruct (add_all_is_Some a (map (fun '(d, c) => (d, - c)) es)) as [z Ez].
  { intros d c Hin. apply in_map_iff in Hin as ([d' c'] & [= -> <-] & Hin).
    apply H1 in Hin as (k & ? & _). eauto. }
  exists z. split; [done|]. apply add_all_spec in Ez as [W M]; [|done].
  split; [done|]. intros k. rewrite M, esum_neg, H4. lia.
Qed.

(** ** Distinct and Unique *)
Lemma esum_NoDup es d c k : NoDup (map (fun e => key e.1) es) -> In (d, c) es -> key d = Some k ->
  esum es k = c.
Proof.
  induction es as [|[d' c'] es IH]; simpl; [done|].
  intros Hn Hin Hk. apply NoDup_cons in Hn as [Hni Hn].
  destruct Hin as [[= -> ->]|Hin].
  - unfold esum; simpl. rewrite decide_True by done.
    rewrite (lsum_zero _ es); [lia|]. intros [d1 c1] Hin1; simpl. rewrite decide_False; [done|].
    intros Hk1. apply Hni. apply elem_of_list_In, in_map_iff. exists (d1, c1). simpl. split; [congruence|done].
  - unfold esum in *; simpl. rewrite decide_False; [rewrite IH; done|].
    intros Hk'. apply Hni. apply elem_of_list_In, in_map_iff. exists (d, c). simpl. split; [congruence|done].
Qed.

(** Sum of a function of the count over the (unique) entry with identity [k]. *)
Lemma esum_map_NoDup (f : Z -> Z) es k : f 0 = 0 -> NoDup (map (fun e => key e.1) es) ->
  esum (map (fun e => (e.1, f e.2)) es) k = f (esum es k).
Proof.
  intros Hf. induction es as [|[d c] es IH]; simpl; intros Hn; [done|].
  apply NoDup_cons in Hn as [Hni Hn]. unfold esum in *. simpl. rewrite IH by done.
  case_decide as Hk.
  - rewrite (lsum_zero _ es); [rewrite Hf, !Z.add_0_r; done|].
    intros [d1 c1] Hin1; simpl. rewrite decide_False; [done|].
    intros Hk1. apply Hni. apply elem_of_list_In, in_map_iff. exists (d1, c1). simpl. split; [congruence|done].
  - simpl. done.
Qed.

Lemma zdistinct_spec o a : order_ok o -> zwf a ->
  exists z, zdistinct o a = Some z /\ zwf z /\ forall k, zcount z k = if 0 <? zcount a k then 1 else 0.
Proof.
  intros Ho W. unfold zdistinct. destruct (entries_ok o a Ho W) as (es & E & H1 & H2 & H3 & H4).
  rewrite E; simpl.
  set (l := map _ _).
  destruct (add_all_is_Some zempty l) as [z Ez].
  { intros d c Hin. apply in_map_iff in Hin as ([d' c'] & [= -> <-] & Hin).
    apply filter_In in Hin as [Hin _]. apply H1 in Hin as (k & ? & _). eauto. }
  exists z. split; [done|]. apply add_all_spec in Ez as [Wz M]; [|apply wf_empty].
  split; [done|]. intros k. rewrite M, mult_empty, <- H4.
  rewrite <- (esum_map_NoDup (fun c => if 0 <? c then 1 else 0) es k eq_refl H3).
  subst l. unfold esum. rewrite !lsum_map, lsum_filter.
  apply lsum_ext. intros [d c] _; simpl. destruct (0 <? c); case_decide; done.
Qed.
Lemma zunique_spec o a : order_ok o -> zwf a ->
  exists z, zunique o a = Some z /\ zwf z /\ forall k, zcount z k = Z.sgn (zcount a k).
Proof.
  intros Ho W. unfold zunique. destruct (entries_ok o a Ho W) as (es & E & H1 & H2 & H3 & H4).
  rewrite E; simpl.
  set (l := map _ _).
  destruct (add_all_is_Some zempty l) as [z Ez].
  { intros d c Hin. apply in_map_iff in Hin as ([d' c'] & [= -> <-] & Hin).
    apply H1 in Hin as (k & ? & _). eauto. }
  exists z. split; [done|]. apply add_all_spec in Ez as [Wz M]; [|apply wf_empty].
  split; [done|]. intros k. rewrite M, mult_empty, <- H4.
  rewrite <- (esum_map_NoDup Z.sgn es k eq_refl H3).
  subst l. unfold esum. rewrite !lsum_map. simpl.
  apply lsum_ext. intros [d c] Hin; simpl. case_decide; [|done].
  apply H1 in Hin as (k' & ? & Hc & _). apply (wf_nz _ W) in Hc.
  destruct (Z.ltb_spec c 0); destruct c; simpl; lia.
Qed.

(** ** Reachable Z-sets are well formed *)
Lemma zfrom_docs_loop_spec ds : forall z z', zwf z -> zfrom_docs_loop z ds = Some z' ->
  zwf z' /\ forall k, zcount z' k = zcount z k + occ k ds.
Proof.
  induction ds as [|d ds IH]; intros z z' W; simpl.
  - intros [= <-]. split; [done|]. intros k; unfold occ; simpl; lia.
  - unfold add_doc_copy. rewrite shallow_copy_id. destruct (add_doc z d 1) as [z1|] eqn:E; simpl; [|done].
    intros E'. apply add_doc_spec in E as [W1 M1]; [|done]. apply IH in E' as [W' M']; [|done].
    split; [done|]. intros k; rewrite M', M1. unfold occ; simpl. lia.
Qed.

Lemma reachable_wf z : reachable z -> zwf z.
Proof.
  induction 1.
  - apply wf_empty.
  - eapply add_doc_spec; eauto.
  - unfold add_doc_copy in *. rewrite shallow_copy_id in *. eapply add_doc_spec; eauto.
  - destruct (zadd_spec o a b) as (z & E & W & _); auto. congruence.
  - destruct (zsub_spec o a b) as (z & E & W & _); auto. congruence.
  - destruct (zdistinct_spec o a) as (z & E & W & _); auto. congruence.
  - destruct (zunique_spec o a) as (z & E & W & _); auto. congruence.
  - by rewrite deep_copy_wf.
  - by rewrite shallow_copy_id.
  - unfold zsingleton, add_doc_copy in *. rewrite shallow_copy_id in *. eapply add_doc_spec; eauto using wf_empty.
  - eapply zfrom_docs_loop_spec; eauto using wf_empty.
Qed.

(** ** Weighted sums depend only on the multiset *)
Definition congr (g : doc -> Z) : Prop := forall d1 d2 k, key d1 = Some k -> key d2 = Some k -> g d1 = g d2.
Definition keyed (es : list (doc * Z)) : Prop := forall d c, In (d, c) es -> is_Some (key d).

Lemma keyed_app es1 es2 : keyed (es1 ++ es2) <-> keyed es1 /\ keyed es2.
Proof. unfold keyed. setoid_rewrite in_app_iff. firstorder. Qed.
Lemma keyed_cons d c es : keyed ((d, c) :: es) <-> is_Some (key d) /\ keyed es.
Proof.
  unfold keyed; simpl. split.
  - intros E; split; [eapply E; left; done|]. intros; eapply E; right; eauto.
  - intros [E1 E2] d' c' [[= <- <-]|Hin]; eauto.
Qed.

Lemma wsum_app g es1 es2 : wsum g (es1 ++ es2) = wsum g es1 + wsum g es2.
Proof. apply lsum_app. Qed.

(** Split off the weight of one identity. *)
Lemma wsum_remove g k d0 es : congr g -> key d0 = Some k ->
  wsum g es = esum es k * g d0 + wsum g (List.filter (fun e => negb (bool_decide (key e.1 = Some k))) es).
Proof.
  intros Hg Hk. induction es as [|[d c] es IH]; simpl; [done|].
  unfold wsum, esum in *. simpl. rewrite IH.
  case_decide as Hd.
  - rewrite bool_decide_true by done. simpl. rewrite (Hg d d0 k) by done. lia.
  - rewrite bool_decide_false by done. simpl. lia.
Qed.
Lemma esum_remove_same k es :
  esum (List.filter (fun e => negb (bool_decide (key e.1 = Some k))) es) k = 0.
Proof.
  unfold esum. apply lsum_zero. intros [d c] Hin. apply filter_In in Hin as [_ Hb]. simpl in *.
  case_decide; [|done]. rewrite bool_decide_true in Hb by done. done.
Qed.
Lemma esum_remove_other k k' es : k <> k' ->
  esum (List.filter (fun e => negb (bool_decide (key e.1 = Some k))) es) k' = esum es k'.
Proof.
  intros Hn. unfold esum. rewrite lsum_filter. apply lsum_ext. intros [d c] _. simpl.
  case_bool_decide as Hb; simpl; [|done]. rewrite Hb. case_decide; congruence.
Qed.

Lemma wsum_zero g es : congr g -> keyed es -> (forall k, esum es k = 0) -> wsum g es = 0.
Proof.
  intros Hg. remember (length es) as n eqn:Hn. revert es Hn.
  induction n as [n IH] using lt_wf_ind. intros es Hn He H0.
  destruct es as [|[d c] es]; [done|].
  destruct (proj1 (keyed_cons _ _ _) He) as [[k Hk] He'].
  rewrite (wsum_remove g k d) by done. rewrite H0, Z.mul_0_l, Z.add_0_l.
  eapply IH; [|reflexivity| |].
  - subst n. simpl. rewrite bool_decide_true by done. simpl.
    clear. induction es as [|x es IH]; simpl; [lia|]. destruct (negb _); simpl; lia.
  - intros d' c' Hin. apply filter_In in Hin as [Hin _]. eapply He; eauto.
  - intros k'. destruct (decide (k = k')) as [->|Hne]; [apply esum_remove_same|].
    rewrite esum_remove_other by done. apply H0.
Qed.

Lemma wsum_neg g es : wsum g (map (fun '(d, c) => (d, - c)) es) = - wsum g es.
Proof. unfold wsum. rewrite lsum_map. induction es as [|[d c] es IH]; simpl in *; [done|]. lia. Qed.
Lemma keyed_neg es : keyed es -> keyed (map (fun '(d, c) => (d, - c)) es).
Proof. intros He d c Hin. apply in_map_iff in Hin as ([d' c'] & [= -> <-] & Hin). eauto. Qed.

Lemma wsum_ext g es1 es2 : congr g -> keyed es1 -> keyed es2 ->
  (forall k, esum es1 k = esum es2 k) -> wsum g es1 = wsum g es2.
Proof.
  intros Hg H1 H2 E.
  assert (wsum g (es1 ++ map (fun '(d, c) => (d, - c)) es2) = 0) as H0.
  { apply wsum_zero; [done| |].
    - apply keyed_app; split; [done|]. by apply keyed_neg.
    - intros k. rewrite esum_app, esum_neg, E. lia. }
  rewrite wsum_app, wsum_neg in H0. lia.
Qed.

(** A weighted sum of zero weights may be dropped, and a sum splits over Add. *)
Lemma wsum_add g es1 es2 es : congr g -> keyed es1 -> keyed es2 -> keyed es ->
  (forall k, esum es k = esum es1 k + esum es2 k) -> wsum g es = wsum g es1 + wsum g es2.
Proof.
  intros Hg H1 H2 H3 E. rewrite <- wsum_app. apply wsum_ext; [done|done|by apply keyed_app|].
  intros k. rewrite esum_app. apply E.
Qed.

End zset.
