(** Joins: the incremental joins compute the snapshot join. *)
From Verif Require Import ZSetModel OpsModel ExecModel ZSetSpec ZSetProofs ZSetProofs2 OpsSpec OpsProofs ExecSpec StreamProofs.

Section joins.
Context {DD : Docs}.
Implicit Types (z a b : zset) (k : ident) (jev : join_evaluator).

(** ** Sums over tuples *)
Lemma lsum_tuples_cons (F : list doc * Z -> Z) es rest :
  lsum F (tuples (es :: rest)) = lsum (fun e => lsum (fun t => F (e.1 :: t.1, e.2 * t.2)) (tuples rest)) es.
Proof. simpl. rewrite lsum_flat_map. apply lsum_ext. intros e _. by rewrite lsum_map. Qed.

Fixpoint jsum (g : list doc -> Z) (inputs : list zset) : Z :=
  match inputs with
  | [] => g []
  | z :: rest => wsum (fun d => jsum (fun t => g (d :: t)) rest) (zents z)
  end.
Lemma jsum_tuples inputs : forall g,
  jsum g inputs = lsum (fun t => t.2 * g t.1) (tuples (map zents inputs)).
Proof.
  induction inputs as [|z rest IH]; intros g.
  - simpl. lia.
  - cbn [map]. rewrite lsum_tuples_cons. cbn [jsum]. unfold wsum. apply lsum_ext. intros [d c] _. simpl.
    rewrite IH. rewrite <- lsum_scale. apply lsum_ext. intros [t w] _. simpl. lia.
Qed.
Lemma join_mult_jsum jev inputs k : join_mult jev inputs k = jsum (fun t => occ k (default [] (jev t))) inputs.
Proof. rewrite jsum_tuples. done. Qed.

Definition tkeyed (t : list doc) : Prop := Forall (fun d => is_Some (key d)) t.
Definition tcongr (g : list doc -> Z) : Prop := forall t1 t2, Forall2 same_key t1 t2 -> g t1 = g t2.

Lemma same_key_refl d : is_Some (key d) -> same_key d d.
Proof. intros [k E]. exists k. done. Qed.
Lemma same_key_sym d1 d2 : same_key d1 d2 -> same_key d2 d1.
Proof. intros (k & ? & ?). exists k. done. Qed.
Lemma same_key_trans d1 d2 d3 : same_key d1 d2 -> same_key d2 d3 -> same_key d1 d3.
Proof. intros (k & ? & ?) (k' & ? & ?). exists k. split; congruence. Qed.
Lemma tkeyed_refl t : tkeyed t -> Forall2 same_key t t.
Proof. induction 1; constructor; auto using same_key_refl. Qed.

Lemma jsum_ext g1 g2 inputs : Forall zwf inputs -> (forall t, tkeyed t -> g1 t = g2 t) -> jsum g1 inputs = jsum g2 inputs.
Proof.
  intros W. revert g1 g2. induction W as [|z rest Wz W IH]; intros g1 g2 E; simpl; [apply E; constructor|].
  unfold wsum. apply lsum_ext. intros [d c] Hin. simpl. f_equal. apply IH.
  intros t Ht. apply E. constructor; [|done]. eapply zents_keyed; eauto.
Qed.
Lemma tcongr_cons g d : tcongr g -> is_Some (key d) -> tcongr (fun t => g (d :: t)).
Proof. intros Hg Hk t1 t2 F. apply Hg. constructor; [by apply same_key_refl|done]. Qed.
Lemma jsum_congr g rest : Forall zwf rest -> tcongr g -> congr (fun d => jsum (fun t => g (d :: t)) rest).
Proof.
  intros W Hg d1 d2 k H1 H2. apply jsum_ext; [done|]. intros t Ht. apply Hg.
  constructor; [by exists k|by apply tkeyed_refl].
Qed.

Lemma wsum_ext_in (g1 g2 : doc -> Z) es : (forall d c, In (d, c) es -> g1 d = g2 d) -> wsum g1 es = wsum g2 es.
Proof. intros E. unfold wsum. apply lsum_ext. intros [d c] Hin. simpl. by rewrite (E d c). Qed.

Lemma jsum_zeq g xs ys : Forall zwf xs -> Forall zwf ys -> Forall2 zeq xs ys -> tcongr g -> jsum g xs = jsum g ys.
Proof.
  intros Wx Wy F. revert g Wx Wy. induction F as [|x y xs ys E F IH]; intros g Wx Wy Hg; [done|].
  apply Forall_cons in Wx as [Wx Wxs], Wy as [Wy Wys]. simpl.
  rewrite (wsum_ext (fun d => jsum (fun t => g (d :: t)) xs) (zents x) (zents y)); auto using jsum_congr, zents_keyed.
  2:{ intros k. rewrite !zents_esum by done. apply E. }
  apply wsum_ext_in. intros d c Hin. apply IH; auto.
  apply tcongr_cons; [done|]. eapply zents_keyed; eauto.
Qed.

(** ** The mask expansion *)
Lemma seqZ_double N : 0 <= N -> seqZ 0 (2 * N) = flat_map (fun m => [2 * m; 2 * m + 1]) (seqZ 0 N).
Proof.
  intros H. pattern N. apply natlike_ind; [done| |done]. clear N H. intros N HN IH.
  replace (2 * Z.succ N) with (2 * N + 2) by lia.
  rewrite seqZ_app by lia. rewrite IH. replace (Z.succ N) with (N + 1) by lia.
  rewrite (seqZ_app 0 N 1) by lia. rewrite flat_map_app. f_equal.
  change (seqZ (0 + N) 1) with [0 + N]. simpl.
  rewrite seqZ_cons by lia. rewrite seqZ_cons by lia. rewrite seqZ_nil by lia.
  rewrite Z.add_0_l. repeat (f_equal; try lia).
Qed.
Lemma lsum_double (F : Z -> Z) N : 0 <= N ->
  lsum F (seqZ 0 (2 * N)) = lsum (fun m => F (2 * m) + F (2 * m + 1)) (seqZ 0 N).
Proof.
  intros H. rewrite seqZ_double by done. rewrite lsum_flat_map. apply lsum_ext. intros m _. simpl. lia.
Qed.
Lemma term_inputs_even i m ds : forall ps, 0 <= i -> term_inputs (i + 1) (2 * m) ds ps = term_inputs i m ds ps.
Proof.
  revert i. induction ds as [|d ds IH]; intros i [|p ps] Hi; simpl; try done.
  rewrite IH by lia. replace (i + 1) with (Z.succ i) by lia. by rewrite Z.testbit_even_succ.
Qed.
Lemma term_inputs_odd i m ds : forall ps, 0 <= i -> term_inputs (i + 1) (2 * m + 1) ds ps = term_inputs i m ds ps.
Proof.
  revert i. induction ds as [|d ds IH]; intros i [|p ps] Hi; simpl; try done.
  rewrite IH by lia. replace (i + 1) with (Z.succ i) by lia. by rewrite Z.testbit_odd_succ.
Qed.
Lemma term_inputs_cons_even m d ds p ps :
  term_inputs 0 (2 * m) (d :: ds) (p :: ps) = p :: term_inputs 0 m ds ps.
Proof. cbn [term_inputs]. rewrite Z.testbit_even_0. f_equal. apply (term_inputs_even 0). lia. Qed.
Lemma term_inputs_cons_odd m d ds p ps :
  term_inputs 0 (2 * m + 1) (d :: ds) (p :: ps) = d :: term_inputs 0 m ds ps.
Proof. cbn [term_inputs]. rewrite Z.testbit_odd_0. f_equal. apply (term_inputs_odd 0). lia. Qed.
Lemma term_inputs_zero i ds : forall ps, length ds = length ps -> term_inputs i 0 ds ps = ps.
Proof.
  revert i; induction ds as [|d ds IH]; intros i [|p ps] E; simpl in *; try done.
  rewrite Z.testbit_0_l. f_equal. apply IH. lia.
Qed.
Lemma term_inputs_wf i mask ds : forall ps, Forall zwf ds -> Forall zwf ps -> Forall zwf (term_inputs i mask ds ps).
Proof.
  revert i; induction ds as [|d ds IH]; intros i [|p ps] Wd Wp; simpl; try constructor.
  - apply Forall_cons in Wd as [? _], Wp as [? _]. by destruct (Z.testbit mask i).
  - apply Forall_cons in Wd as [_ ?], Wp as [_ ?]. auto.
Qed.

(** [As] is pointwise [Ps + Ds]. *)
Definition sums (As Ps Ds : list zset) : Prop :=
  length As = length Ds /\ length Ps = length Ds /\
  forall i a p d, As !! i = Some a -> Ps !! i = Some p -> Ds !! i = Some d ->
    forall k, zcount a k = zcount p k + zcount d k.
Lemma sums_cons a p d As Ps Ds : sums (a :: As) (p :: Ps) (d :: Ds) <->
  (forall k, zcount a k = zcount p k + zcount d k) /\ sums As Ps Ds.
Proof.
  split.
  - intros (L1 & L2 & H). simpl in *. split; [by apply (H 0%nat)|]. split; [lia|]. split; [lia|].
    intros i. apply (H (S i)).
  - intros (H0 & L1 & L2 & H). split; [simpl; lia|]. split; [simpl; lia|].
    intros [|i] a' p' d'; simpl; [intros [= <-] [= <-] [= <-]; done|]. apply H.
Qed.
Lemma sums_nil As Ps : sums As Ps [] -> As = [] /\ Ps = [].
Proof. intros (L1 & L2 & _). by destruct As, Ps. Qed.

Lemma jsum_masks Ds : forall g As Ps, Forall zwf Ds -> Forall zwf Ps -> Forall zwf As -> sums As Ps Ds -> tcongr g ->
  jsum g As = lsum (fun mask => jsum g (term_inputs 0 mask Ds Ps)) (seqZ 0 (2 ^ Z.of_nat (length Ds))).
Proof.
  induction Ds as [|d Ds IH]; intros g As Ps Wd Wp Wa HS Hg.
  - apply sums_nil in HS as [-> ->]. simpl. change (2 ^ Z.of_nat 0) with 1. simpl. lia.
  - destruct As as [|a As]; [by destruct HS|]. destruct Ps as [|p Ps]; [by destruct HS as (_ & ? & _)|].
    apply sums_cons in HS as [H0 HS].
    apply Forall_cons in Wd as [Wd Wds], Wp as [Wp Wps], Wa as [Wa Was].
    cbn [length]. rewrite Nat2Z.inj_succ, Z.pow_succ_r by lia. rewrite lsum_double by lia.
    rewrite (lsum_ext _ (fun mask =>
       wsum (fun x => jsum (fun t => g (x :: t)) (term_inputs 0 mask Ds Ps)) (zents p)
       + wsum (fun x => jsum (fun t => g (x :: t)) (term_inputs 0 mask Ds Ps)) (zents d))).
    2:{ intros m _. rewrite term_inputs_cons_even, term_inputs_cons_odd. done. }
    cbn [jsum].
    rewrite (wsum_add _ (zents p) (zents d)); auto using jsum_congr, zents_keyed.
    2:{ intros k. rewrite !zents_esum by done. apply H0. }
    rewrite lsum_plus. f_equal.
    + unfold wsum. rewrite lsum_swap. apply lsum_ext. intros [x c] Hin. simpl.
      rewrite lsum_scale. f_equal. apply IH; auto. apply tcongr_cons; [done|]. eapply (zents_keyed p); eauto.
    + unfold wsum. rewrite lsum_swap. apply lsum_ext. intros [x c] Hin. simpl.
      rewrite lsum_scale. f_equal. apply IH; auto. apply tcongr_cons; [done|]. eapply (zents_keyed d); eauto.
Qed.
Lemma jsum_delta g As Ps Ds : Forall zwf Ds -> Forall zwf Ps -> Forall zwf As -> sums As Ps Ds -> tcongr g ->
  lsum (fun mask => jsum g (term_inputs 0 mask Ds Ps)) (seqZ 1 (2 ^ Z.of_nat (length Ds) - 1)) = jsum g As - jsum g Ps.
Proof.
  intros Wd Wp Wa HS Hg. rewrite (jsum_masks Ds g As Ps) by done.
  rewrite (seqZ_cons 0). 2:{ apply Z.pow_pos_nonneg; lia. }
  simpl. rewrite term_inputs_zero by (destruct HS as (_ & ? & _); done).
  change (Z.succ 0) with 1. replace (Z.pred (2 ^ Z.of_nat (length Ds))) with (2 ^ Z.of_nat (length Ds) - 1) by lia. lia.
Qed.

(** ** Goodness of tuples *)
Definition all_good jev (inputs : list zset) : Prop :=
  forall t w, In (t, w) (tuples (map zents inputs)) -> jev_good jev t.

Lemma jev_ok_good jev t1 t2 : jev_ok jev -> Forall2 same_key t1 t2 -> jev_good jev t1 -> jev_good jev t2.
Proof.
  intros Hj F (l & E & Hl). specialize (Hj t1 t2 F). rewrite E in Hj.
  destruct (jev t2) as [l2|] eqn:E2; [|done]. exists l2. split; [done|].
  intros d' Hin. assert (In (key d') (map key l2)) as Hin2 by by apply in_map.
  eapply Permutation_in in Hin2; [|symmetry; exact Hj].
  apply in_map_iff in Hin2 as (d'' & <- & Hin2). auto.
Qed.
Lemma jev_ok_tcongr jev k : jev_ok jev -> tcongr (fun t => occ k (default [] (jev t))).
Proof.
  intros Hj t1 t2 F. specialize (Hj t1 t2 F). destruct (jev t1), (jev t2); simpl; try done. by apply occ_perm.
Qed.

Lemma tuples_cons_in t w z rest : In (t, w) (tuples (map zents (z :: rest))) <->
  exists d c t' w', t = d :: t' /\ w = c * w' /\ In (d, c) (zents z) /\ In (t', w') (tuples (map zents rest)).
Proof.
  simpl. rewrite in_flat_map. split.
  - intros ([d c] & Hd & Hin). apply in_map_iff in Hin as ([t' w'] & [= <- <-] & Hin). simpl. exists d, c, t', w'. done.
  - intros (d & c & t' & w' & -> & -> & Hd & Hin). exists (d, c). split; [done|].
    apply in_map_iff. exists (t', w'). done.
Qed.

Lemma zents_find z k : zwf z -> zcount z k <> 0 -> exists d c, In (d, c) (zents z) /\ key d = Some k.
Proof.
  intros W H. unfold zcount in H. destruct (counts z !! k) as [c|] eqn:Ec; [|done].
  destruct (proj2 (wf_lookup_docs z k W)) as [d Hd]; [eauto|].
  exists d, c. split; [apply zents_in; eauto|]. eapply wf_key; eauto.
Qed.
Lemma zents_nz z d c : zwf z -> In (d, c) (zents z) -> exists k, key d = Some k /\ zcount z k = c /\ c <> 0.
Proof.
  intros W Hin. apply zents_in in Hin as (k & Hd & Hc); [|done]. exists k.
  split; [eapply wf_key; eauto|]. split; [unfold zcount; by rewrite Hc|]. eapply wf_nz; eauto.
Qed.

Lemma tuples_mask Ds : forall As Ps t w, Forall zwf Ds -> Forall zwf Ps -> Forall zwf As -> sums As Ps Ds ->
  In (t, w) (tuples (map zents As)) ->
  exists mask t' w', In mask (seqZ 0 (2 ^ Z.of_nat (length Ds))) /\
    In (t', w') (tuples (map zents (term_inputs 0 mask Ds Ps))) /\ Forall2 same_key t' t.
Proof.
  induction Ds as [|d Ds IH]; intros As Ps t w Wd Wp Wa HS Hin.
  - apply sums_nil in HS as [-> ->]. simpl in *. exists 0, t, w. split; [by left|]. split; [done|].
    destruct Hin as [[= <- <-]|[]]. constructor.
  - destruct As as [|a As]; [by destruct HS|]. destruct Ps as [|p Ps]; [by destruct HS as (_ & ? & _)|].
    apply sums_cons in HS as [H0 HS].
    apply Forall_cons in Wd as [Wd Wds], Wp as [Wp Wps], Wa as [Wa Was].
    apply tuples_cons_in in Hin as (x & c & t1 & w1 & -> & -> & Hx & Hin).
    destruct (IH As Ps t1 w1 Wds Wps Was HS Hin) as (m & t' & w' & Hm & Hin' & HF).
    apply elem_of_list_In, elem_of_seqZ in Hm.
    destruct (zents_nz a x c Wa Hx) as (k & Hk & Hc & Hnz). rewrite H0 in Hc.
    cbn [length]. rewrite Nat2Z.inj_succ, Z.pow_succ_r by lia.
    destruct (decide (zcount d k = 0)) as [Hd|Hd].
    + destruct (zents_find p k Wp) as (x' & c' & Hx' & Hk'); [lia|].
      exists (2 * m), (x' :: t'), (c' * w'). split; [apply elem_of_list_In, elem_of_seqZ; lia|].
      rewrite term_inputs_cons_even. split.
      * apply tuples_cons_in. eauto 10.
      * constructor; [by exists k|done].
    + destruct (zents_find d k Wd Hd) as (x' & c' & Hx' & Hk').
      exists (2 * m + 1), (x' :: t'), (c' * w'). split; [apply elem_of_list_In, elem_of_seqZ; lia|].
      rewrite term_inputs_cons_odd. split.
      * apply tuples_cons_in. eauto 10.
      * constructor; [by exists k|done].
Qed.

Lemma all_good_zeq jev xs ys : jev_ok jev -> Forall zwf xs -> Forall zwf ys -> Forall2 zeq xs ys ->
  all_good jev xs -> all_good jev ys.
Proof.
  intros Hj Wx Wy F HG t w Hin.
  assert (exists t' w', In (t', w') (tuples (map zents xs)) /\ Forall2 same_key t' t) as (t' & w' & Hin' & F').
  { clear HG. revert t w Hin Wx Wy. induction F as [|x y xs ys E F IH]; intros t w Hin Wx Wy.
    - exists t, w. split; [done|]. destruct Hin as [[= <- <-]|[]]. constructor.
    - apply Forall_cons in Wx as [Wx Wxs], Wy as [Wy Wys].
      apply tuples_cons_in in Hin as (d & c & t1 & w1 & -> & -> & Hd & Hin).
      destruct (IH t1 w1 Hin Wxs Wys) as (t' & w' & Hin' & F').
      destruct (zents_nz y d c Wy Hd) as (k & Hk & Hc & Hnz).
      destruct (zents_find x k Wx) as (d' & c' & Hd' & Hk'); [rewrite (E k); lia|].
      exists (d' :: t'), (c' * w'). split; [apply tuples_cons_in; eauto 10|]. constructor; [by exists k|done]. }
  eapply jev_ok_good; eauto.
Qed.

(** ** The cartesian join *)
Lemma join_loop_spec o f G es : order_ok o ->
  (forall n d c t, In (d, c) es -> f n d c = Some t -> zwf t /\ forall k, zcount t k = G (d, c) k) ->
  forall n acc z, zwf acc -> join_loop o f n acc es = Some z ->
  zwf z /\ forall k, zcount z k = zcount acc k + lsum (fun e => G e k) es.
Proof.
  intros Ho. induction es as [|[d c] es IH]; simpl; intros Hf n acc z Wa.
  - intros [= <-]. split; [done|]. intros k. lia.
  - destruct (f n d c) as [t|] eqn:Ef; simpl; [|done].
    destruct (Hf n d c t) as [Wt Mt]; [by left|done|].
    destruct (zadd_spec (osub o n) acc t) as (acc' & -> & Wacc & Macc); auto using osub_ok. simpl.
    intros E. apply IH in E as [Wz Mz]; [|by eauto|done].
    split; [done|]. intros k. rewrite Mz, Macc, Mt. lia.
Qed.
Lemma join_loop_success o f (P : doc -> Z -> Prop) es : order_ok o ->
  (forall n d c, In (d, c) es -> is_Some (f n d c) <-> P d c) ->
  (forall n d c t, In (d, c) es -> f n d c = Some t -> zwf t) ->
  forall n acc, zwf acc -> is_Some (join_loop o f n acc es) <-> forall d c, In (d, c) es -> P d c.
Proof.
  intros Ho. induction es as [|[d c] es IH]; simpl; intros Hs Hf n acc Wa.
  - split; [done|]. eauto.
  - destruct (f n d c) as [t|] eqn:Ef; simpl.
    + assert (Wt : zwf t) by (eapply Hf; eauto).
      destruct (zadd_spec (osub o n) acc t) as (acc' & -> & Wacc & _); auto using osub_ok. simpl.
      rewrite IH; eauto. split; [|by eauto]. intros H d' c' [[= <- <-]|Hin]; [|by eauto].
      apply (Hs n d c); [by left|]. eauto.
    + split; [by intros [? ?]|]. intros H. exfalso. destruct (proj2 (Hs n d c (or_introl eq_refl))); [by eauto|congruence].
Qed.

Lemma cjoin_spec jev inputs : Forall zwf inputs -> forall o ds m z, order_ok o ->
  cjoin o jev inputs ds m = Some z ->
  zwf z /\ forall k, zcount z k = m * jsum (fun t => occ k (default [] (jev (rev ds ++ t)))) inputs.
Proof.
  induction 1 as [|x rest Wx Wr IH]; intros o ds m z Ho; simpl.
  - destruct (jev (rev ds)) as [js|] eqn:Ej; simpl; [|done]. intros E.
    apply add_all_spec in E as [Wz Mz]; [|apply wf_empty]. split; [done|]. intros k.
    rewrite Mz, mult_empty, esum_map_const, app_nil_r, Ej. simpl. lia.
  - destruct (entries_ok (osub o 0) x) as (es & E & H1 & _ & _ & _); auto using osub_ok. rewrite E. simpl. intros El.
    assert (P : Permutation es (zents x)) by (apply (zents_entries (osub o 0)); eauto using osub_ok).
    eapply (join_loop_spec _ _ (fun e k => (m * e.2) * jsum (fun t => occ k (default [] (jev (rev ds ++ e.1 :: t)))) rest)) in El as [Wz Mz].
    + split; [done|]. intros k. rewrite Mz, mult_empty. rewrite (lsum_perm _ _ _ P).
      unfold wsum. rewrite <- lsum_scale. simpl. apply lsum_ext. intros [d c] _. simpl. lia.
    + by apply osub_ok.
    + intros n d c t _ Et. apply IH in Et as [Wt Mt]; [|auto using osub_ok]. split; [done|].
      intros k. rewrite Mt. simpl. f_equal. apply jsum_ext; [done|]. intros t' _.
      rewrite <- app_assoc. done.
    + apply wf_empty.
Qed.
Lemma cjoin_success jev inputs : Forall zwf inputs -> forall o ds m, order_ok o -> m <> 0 ->
  is_Some (cjoin o jev inputs ds m) <-> forall t w, In (t, w) (tuples (map zents inputs)) -> jev_good jev (rev ds ++ t).
Proof.
  induction 1 as [|x rest Wx Wr IH]; intros o ds m Ho Hm.
  - simpl. destruct (jev (rev ds)) as [js|] eqn:Ej; simpl.
    + split.
      * intros [z E] t w [[= <- <-]|[]]. rewrite app_nil_r. exists js. split; [done|]. intros d' Hin.
        destruct (key d') eqn:Ek; [eauto|]. exfalso.
        assert (add_all zempty (map (fun d => (d, m)) js) = None); [|congruence].
        apply add_all_None, Exists_exists. exists (d', m). split; [|done]. apply elem_of_list_In, in_map_iff. eauto.
      * intros H. destruct (H [] 1) as (l & El & Hl); [by left|]. rewrite app_nil_r, Ej in El. injection El as <-.
        apply add_all_is_Some. intros d c Hin. apply in_map_iff in Hin as (d' & [= -> _] & Hin). auto.
    + split; [by intros [? ?]|]. intros H. destruct (H [] 1) as (l & El & Hl); [by left|].
      rewrite app_nil_r in El. congruence.
  - cbn [cjoin]. destruct (entries_ok (osub o 0) x) as (es & E & H1 & _ & _ & _); auto using osub_ok. rewrite E. simpl.
    assert (P : Permutation es (zents x)) by (apply (zents_entries (osub o 0)); eauto using osub_ok).
    rewrite (join_loop_success _ _ (fun d c => forall t w, In (t, w) (tuples (map zents rest)) -> jev_good jev (rev ds ++ d :: t))).
    + split.
      * intros H t w Hin. apply (tuples_cons_in t w x rest) in Hin as (d & c & t' & w' & -> & -> & Hd & Hin).
        eapply H; eauto. eapply Permutation_in; [symmetry; exact P|exact Hd].
      * intros H d c Hin t w Ht. eapply (H (d :: t) (c * w)). apply (tuples_cons_in (d :: t) (c * w) x rest).
        exists d, c, t, w. split; [done|]. split; [done|]. split; [|done]. eapply Permutation_in; [exact P|exact Hin].
    + by apply osub_ok.
    + intros n d c Hin. rewrite IH.
      * simpl. split; intros H t w Ht; specialize (H t w Ht); rewrite <- app_assoc in *; done.
      * auto using osub_ok.
      * apply H1 in Hin as (k & _ & Hc & _). apply (wf_nz _ Wx) in Hc. lia.
    + intros n d c t _ Et. eapply cjoin_spec in Et; [apply Et|done|auto using osub_ok].
    + apply wf_empty.
Qed.

Lemma cjoin_top jev inputs o z : Forall zwf inputs -> order_ok o -> cjoin o jev inputs [] 1 = Some z ->
  zwf z /\ forall k, zcount z k = join_mult jev inputs k.
Proof.
  intros W Ho E. apply cjoin_spec in E as [Wz Mz]; try done. split; [done|]. intros k.
  rewrite Mz, join_mult_jsum. simpl. lia.
Qed.
Lemma cjoin_top_success jev inputs o : Forall zwf inputs -> order_ok o ->
  is_Some (cjoin o jev inputs [] 1) <-> all_good jev inputs.
Proof. intros W Ho. rewrite cjoin_success by done. simpl. done. Qed.

(** ** Incremental n-ary join *)
Lemma mask_loop_spec o jev Ds Ps masks : order_ok o -> Forall zwf Ds -> Forall zwf Ps ->
  forall n acc z, zwf acc -> mask_loop o jev Ds Ps n acc masks = Some z ->
  zwf z /\ (forall k, zcount z k = zcount acc k + lsum (fun m => join_mult jev (term_inputs 0 m Ds Ps) k) masks).
Proof.
  intros Ho Wd Wp. induction masks as [|m masks IH]; simpl; intros n acc z Wa.
  - intros [= <-]. split; [done|]. intros k. lia.
  - destruct (cjoin _ jev _ [] 1) as [t|] eqn:Et; simpl; [|done].
    apply cjoin_top in Et as [Wt Mt]; auto using term_inputs_wf, osub_ok.
    destruct (zadd_spec (osub (osub o 1) n) acc t) as (acc' & -> & Wacc & Macc); auto using osub_ok. simpl.
    intros E. apply IH in E as [Wz Mz]; [|done]. split; [done|]. intros k. rewrite Mz, Macc, Mt. lia.
Qed.
Lemma mask_loop_success o jev Ds Ps masks : order_ok o -> Forall zwf Ds -> Forall zwf Ps ->
  forall n acc, zwf acc -> is_Some (mask_loop o jev Ds Ps n acc masks) <->
    forall m, In m masks -> all_good jev (term_inputs 0 m Ds Ps).
Proof.
  intros Ho Wd Wp. induction masks as [|m masks IH]; simpl; intros n acc Wa.
  - split; [done|]. eauto.
  - destruct (cjoin (osub (osub o 0) n) jev (term_inputs 0 m Ds Ps) [] 1) as [t|] eqn:Et; simpl.
    + assert (all_good jev (term_inputs 0 m Ds Ps)) as HG.
      { eapply cjoin_top_success; [by apply term_inputs_wf|..|rewrite Et]; eauto using osub_ok. }
      apply cjoin_top in Et as [Wt Mt]; auto using term_inputs_wf, osub_ok.
      destruct (zadd_spec (osub (osub o 1) n) acc t) as (acc' & -> & Wacc & Macc); auto using osub_ok. simpl.
      rewrite IH by done. split; [|by auto]. intros H m' [<-|Hin]; auto.
    + split; [by intros [? ?]|]. intros H. exfalso.
      destruct (proj2 (cjoin_top_success jev (term_inputs 0 m Ds Ps) (osub (osub o 0) n)
        (term_inputs_wf _ _ _ _ Wd Wp) (osub_ok _ _ (osub_ok _ _ Ho)))); [by auto|congruence].
Qed.
Lemma update_prevs_spec o Ds : forall n Ps, order_ok o -> Forall zwf Ds -> Forall zwf Ps -> length Ps = length Ds ->
  exists Ps', update_prevs o n Ps Ds = Some Ps' /\ Forall zwf Ps' /\ sums Ps' Ps Ds.
Proof.
  induction Ds as [|d Ds IH]; intros n [|p Ps] Ho Wd Wp L; simpl in *; try done.
  - exists []. split; [done|]. split; [constructor|]. split; [done|]. split; [done|]. done.
  - apply Forall_cons in Wd as [Wd Wds], Wp as [Wp Wps].
    destruct (zadd_spec (osub o n) p d) as (p' & -> & Wp' & Mp'); auto using osub_ok. simpl.
    destruct (IH (S n) Ps) as (Ps' & -> & Wps' & HS); auto; simpl.
    exists (p' :: Ps'). split; [done|]. split; [by constructor|]. by apply sums_cons.
Qed.

(** One step of the incremental join from states [Ps]. *)
Lemma join_inc_step o jev n prevs Ds ps' r : order_ok o -> jev_ok jev ->
  let Ps := map (default zempty) prevs in
  Forall zwf Ps -> Forall zwf Ds -> length prevs = n -> length Ds = n ->
  join_inc o jev n prevs Ds = (ps', r) ->
  match r with
  | None => ps' = map Some Ps /\ exists m, In m (seqZ 1 (2 ^ Z.of_nat n - 1)) /\ ~ all_good jev (term_inputs 0 m Ds Ps)
  | Some y => exists Ps', ps' = map Some Ps' /\ Forall zwf Ps' /\ sums Ps' Ps Ds /\ zwf y
      /\ (forall k, zcount y k = join_mult jev Ps' k - join_mult jev Ps k)
      /\ (all_good jev Ps -> all_good jev Ps')
      /\ (forall m, In m (seqZ 1 (2 ^ Z.of_nat n - 1)) -> all_good jev (term_inputs 0 m Ds Ps))
  end.
Proof.
  intros Ho Hj Ps WP WD LP LD. unfold join_inc. rewrite decide_True by done. fold Ps.
  assert (LPs : length Ps = length Ds) by (unfold Ps; rewrite map_length; lia).
  destruct (mask_loop (osub o 0) jev Ds Ps 0 zempty (seqZ 1 (2 ^ Z.of_nat n - 1))) as [y|] eqn:EM.
  - assert (HG : forall m, In m (seqZ 1 (2 ^ Z.of_nat n - 1)) -> all_good jev (term_inputs 0 m Ds Ps)).
    { eapply mask_loop_success; [..|rewrite EM; eauto]; eauto using osub_ok, wf_empty. }
    apply mask_loop_spec in EM as [Wy My]; auto using osub_ok, wf_empty.
    destruct (update_prevs_spec (osub o 1) Ds 0 Ps) as (Ps' & -> & WP' & HS); auto using osub_ok.
    intros [= <- <-]. exists Ps'. split; [done|]. split; [done|]. split; [done|]. split; [done|]. split; [|split; [|done]].
    + intros k. rewrite My, mult_empty.
      rewrite (lsum_ext _ (fun m => jsum (fun t => occ k (default [] (jev t))) (term_inputs 0 m Ds Ps))).
      2:{ intros m _. apply join_mult_jsum. }
      subst n. rewrite <- LD. rewrite (jsum_delta _ Ps'); auto using jev_ok_tcongr. rewrite !join_mult_jsum. lia.
    + intros HG0 t w Hin. destruct (tuples_mask Ds Ps' Ps t w) as (m & t' & w' & Hm & Hin' & F); auto.
      eapply jev_ok_good; eauto. rewrite (seqZ_cons 0) in Hm.
      2:{ apply Z.pow_pos_nonneg; lia. }
      destruct Hm as [<-|Hm].
      * rewrite term_inputs_zero in Hin' by done. eauto.
      * eapply (HG m); eauto. change (Z.succ 0) with 1 in Hm.
        replace (Z.pred (2 ^ Z.of_nat (length Ds))) with (2 ^ Z.of_nat n - 1) in Hm; [done|]. rewrite LD. lia.
  - intros [= <- <-]. split; [done|].
    destruct (decide (Exists (fun m => cjoin std_order jev (term_inputs 0 m Ds Ps) [] 1 = None) (seqZ 1 (2 ^ Z.of_nat n - 1)))) as [He|He].
    + apply Exists_exists in He as (m & Hm & E). exists m. split; [by apply elem_of_list_In|].
      intros HG. apply (cjoin_top_success jev _ std_order) in HG; auto using term_inputs_wf, std_order_ok.
      destruct HG; congruence.
    + exfalso. apply not_Exists_Forall in He; [|apply _].
      assert (is_Some (mask_loop (osub o 0) jev Ds Ps 0 zempty (seqZ 1 (2 ^ Z.of_nat n - 1)))) as [? ?]; [|congruence].
      apply mask_loop_success; auto using osub_ok, wf_empty. intros m Hm.
      rewrite Forall_forall in He. specialize (He m (proj2 (elem_of_list_In _ _) Hm)).
      apply (cjoin_top_success jev _ std_order); auto using term_inputs_wf, std_order_ok.
      apply not_eq_None_Some. exact He.
Qed.

(** Runs of the incremental join. *)
Inductive jrun : jop -> list (list zset) -> list zset -> Prop :=
  | jrun_nil j : jrun j [] []
  | jrun_cons o j ds j1 y dss ys : order_ok o -> jprocess o j ds = (j1, Some y) ->
      jrun j1 dss ys -> jrun j (ds :: dss) (y :: ys).

(** [As] are the column totals of the stream, starting from [Ps]. *)
Definition columns (As Ps : list zset) (dss : list (list zset)) : Prop :=
  length As = length Ps /\
  forall i a p, As !! i = Some a -> Ps !! i = Some p ->
    forall k, zcount a k = zcount p k + lsum (fun ds => zcount (default zempty (ds !! i)) k) dss.

Lemma jrun_inc jev n prevs dss outs : jev_ok jev -> jrun (JInc jev n prevs) dss outs ->
  let Ps := map (default zempty) prevs in
  Forall zwf Ps -> length prevs = n -> Forall (Forall zwf) dss ->
  forall As, Forall zwf As -> columns As Ps dss ->
  (all_good jev Ps -> all_good jev As) /\ forall k, total outs k = join_mult jev As k - join_mult jev Ps k.
Proof.
  intros Hj R. remember (JInc jev n prevs) as j eqn:Ej. revert prevs Ej.
  induction R as [j|o j ds j1 y dss ys Ho E R IH]; intros prevs -> Ps WP L Wd As WA HC.
  - assert (F : Forall2 zeq As Ps).
    { destruct HC as [LC HC]. apply Forall2_same_length_lookup. split; [done|]. intros i a p Ha Hp k.
      rewrite (HC i a p Ha Hp). simpl. lia. }
    split.
    + apply all_good_zeq; auto. clear -F. induction F; constructor; auto using zeq_sym.
    + intros k. unfold total; simpl. rewrite !join_mult_jsum, (jsum_zeq _ As Ps); auto using jev_ok_tcongr. lia.
  - apply Forall_cons in Wd as [Wd Wds]. simpl in E.
    destruct (join_inc o jev n prevs ds) as [ps' r] eqn:EJ.
    injection E as <- ->.
    assert (Ld : length ds = n).
    { unfold join_inc in EJ. destruct (decide (length ds = n)); [done|]. by injection EJ. }
    apply join_inc_step in EJ as (Ps' & -> & WP' & HS & Wy & My & HG & _); auto.
    specialize (IH (map Some Ps') eq_refl). rewrite map_map in IH. simpl in IH. rewrite map_id in IH.
    rewrite map_length in IH. pose proof HS as (L1 & L2 & HSS). fold Ps in L1, L2, HSS, My, HG.
    destruct (IH WP' ltac:(lia) Wds As WA) as [IHG IHM].
    { destruct HC as [LC HC]. split; [lia|]. intros i a p' Ha Hp' k.
      destruct (Ps !! i) as [p|] eqn:Ep.
      2:{ apply lookup_ge_None in Ep. apply lookup_lt_Some in Hp'. lia. }
      destruct (ds !! i) as [d|] eqn:Ed.
      2:{ apply lookup_ge_None in Ed. apply lookup_lt_Some in Hp'. lia. }
      rewrite (HC i a p Ha Ep). simpl. rewrite Ed. simpl. rewrite (HSS i p' p d Hp' Ep Ed). lia. }
    split; [by auto|]. intros k. rewrite total_cons, IHM, My. lia.
Qed.

Lemma zents_empty : zents zempty = [].
Proof. unfold zents. change (docs zempty) with (∅ : gmap ident doc). by rewrite map_to_list_empty. Qed.
Lemma all_good_repeat_empty jev n : (0 < n)%nat -> all_good jev (repeat zempty n).
Proof. intros Hn t w Hin. destruct n; [lia|]. cbn [repeat map tuples] in Hin. rewrite zents_empty in Hin. done. Qed.
Lemma join_mult_repeat_empty jev n k : (0 < n)%nat -> join_mult jev (repeat zempty n) k = 0.
Proof. intros Hn. unfold join_mult. destruct n; [lia|]. cbn [repeat map tuples]. rewrite zents_empty. done. Qed.

(** C07: over any stream. *)
Lemma join_inc_stream jev n dss outs As o : (0 < n)%nat -> jev_ok jev -> order_ok o ->
  jrun (new_inc_join jev n) dss outs -> Forall (Forall zwf) dss ->
  length As = n -> Forall zwf As ->
  (forall i a, As !! i = Some a -> forall k, zcount a k = lsum (fun ds => zcount (default zempty (ds !! i)) k) dss) ->
  exists y, join_snapshot o jev n As = Some y /\ is_total y outs /\ forall k, zcount y k = join_mult jev As k.
Proof.
  intros Hn Hj Ho R Wd LA WA HA. unfold new_inc_join in R.
  destruct (jrun_inc jev n (repeat None n) dss outs Hj R) with (As := As) as [HG HM]; auto.
  - apply Forall_forall. intros x Hx. apply elem_of_list_In, in_map_iff in Hx as (x' & <- & Hx).
    apply repeat_spec in Hx as ->. simpl. apply wf_empty.
  - apply repeat_length.
  - split; [by rewrite map_length, repeat_length|]. intros i a p Ha Hp k. rewrite (HA i a Ha).
    assert (p = zempty) as ->.
    { apply elem_of_list_lookup_2, elem_of_list_In, in_map_iff in Hp as (x' & <- & Hx). by apply repeat_spec in Hx as ->. }
    rewrite mult_empty. lia.
  - assert (Em : map (default zempty) (repeat None n) = repeat zempty n).
    { clear. induction n; simpl; congruence. }
    rewrite Em in *. specialize (HG (all_good_repeat_empty jev n Hn)).
    apply (cjoin_top_success jev As o) in HG as [y Ey]; auto.
    unfold join_snapshot. rewrite decide_True by done. exists y. split; [done|].
    apply cjoin_top in Ey as [Wy My]; auto. split; [|done]. split; [done|]. intros k.
    rewrite My, HM, join_mult_repeat_empty by done. lia.
Qed.

Ltac fa := repeat first [apply Forall_cons_2 | apply Forall2_cons_2 | apply Forall_nil_2 | apply Forall2_nil_2]; try done.

(** ** Binary joins *)
Lemma bjoin_add_eq acc m js : bjoin_add acc m js = add_all acc (map (fun d => (d, m)) js).
Proof.
  revert acc; induction js as [|j js IH]; intros acc; simpl; [done|].
  unfold add_doc_copy. rewrite shallow_copy_id. destruct (add_doc acc j m); simpl; auto.
Qed.
Lemma bjoin_inner_eq jev l lc rs : forall acc,
  bjoin_inner jev l lc acc rs =
  foldl (fun acc e => a ← acc; js ← jev [l; e.1]; add_all a (map (fun d => (d, lc * e.2)) js)) (Some acc) rs.
Proof.
  assert (HN : forall rs, foldl (fun acc e => a ← acc; js ← jev [l; e.1]; add_all a (map (fun d => (d, lc * e.2)) js)) None rs = None).
  { clear. induction rs; simpl; done. }
  induction rs as [|[r rc] rs IH]; intros acc; simpl; [done|].
  destruct (jev [l; r]) as [js|]; simpl; [|by rewrite HN].
  rewrite bjoin_add_eq. destruct (add_all acc _) as [acc'|]; simpl; [apply IH|by rewrite HN].
Qed.
Lemma bjoin_inner_spec jev l lc rs : forall acc z, zwf acc -> bjoin_inner jev l lc acc rs = Some z ->
  zwf z /\ forall k, zcount z k = zcount acc k + lc * wsum (fun r => occ k (default [] (jev [l; r]))) rs.
Proof.
  induction rs as [|[r rc] rs IH]; simpl; intros acc z W.
  - intros [= <-]. split; [done|]. intros k. unfold wsum; simpl. lia.
  - destruct (jev [l; r]) as [js|] eqn:Ej; simpl; [|done]. rewrite bjoin_add_eq.
    destruct (add_all acc _) as [acc'|] eqn:Ea; simpl; [|done]. intros E.
    apply add_all_spec in Ea as [Wa Ma]; [|done]. apply IH in E as [Wz Mz]; [|done].
    split; [done|]. intros k. rewrite Mz, Ma, esum_map_const. unfold wsum; simpl. rewrite Ej. simpl. lia.
Qed.
Lemma bjoin_inner_success jev l lc rs : lc <> 0 -> (forall d c, In (d, c) rs -> c <> 0) -> forall acc,
  is_Some (bjoin_inner jev l lc acc rs) <-> forall r c, In (r, c) rs -> jev_good jev [l; r].
Proof.
  intros Hl. induction rs as [|[r rc] rs IH]; simpl; intros Hn acc.
  - split; [done|eauto].
  - assert (Hrc : rc <> 0) by eauto. destruct (jev [l; r]) as [js|] eqn:Ej; simpl.
    + rewrite bjoin_add_eq. destruct (add_all acc _) as [acc'|] eqn:Ea; simpl.
      * rewrite IH by eauto. split; [|by eauto]. intros H r' c' [[= <- <-]|Hin]; [|by eauto].
        exists js. split; [done|]. intros d' Hin. destruct (key d') eqn:Ek; [eauto|]. exfalso.
        assert (add_all acc (map (fun d => (d, lc * rc)) js) = None); [|congruence].
        apply add_all_None, Exists_exists. exists (d', lc * rc). split; [|simpl; split; [lia|done]].
        apply elem_of_list_In, in_map_iff. eauto.
      * split; [by intros [? ?]|]. intros H. exfalso. apply add_all_None, Exists_exists in Ea as ([d' c'] & Hin & _ & Hk).
        simpl in Hk. apply elem_of_list_In, in_map_iff in Hin as (d'' & [= -> <-] & Hin).
        destruct (H r rc) as (l' & El & Hl'); [by left|]. rewrite Ej in El. injection El as <-.
        destruct (Hl' d' Hin). congruence.
    + split; [by intros [? ?]|]. intros H. destruct (H r rc) as (l' & El & _); [by left|]. congruence.
Qed.
Lemma bjoin_outer_spec o jev R ls : order_ok o -> zwf R -> forall n acc z, zwf acc ->
  bjoin_outer o jev R n acc ls = Some z ->
  zwf z /\ forall k, zcount z k = zcount acc k +
     wsum (fun l => wsum (fun r => occ k (default [] (jev [l; r]))) (zents R)) ls.
Proof.
  intros Ho WR. induction ls as [|[l lc] ls IH]; simpl; intros n acc z W.
  - intros [= <-]. split; [done|]. intros k. unfold wsum; simpl. lia.
  - destruct (entries_ok (osub o n) R) as (rs & E & _); auto using osub_ok. rewrite E; simpl.
    assert (P : Permutation rs (zents R)) by (apply (zents_entries (osub o n)); eauto using osub_ok).
    destruct (bjoin_inner jev l lc acc rs) as [acc'|] eqn:Ei; simpl; [|done]. intros El.
    apply bjoin_inner_spec in Ei as [Wa Ma]; [|done]. apply IH in El as [Wz Mz]; [|done].
    split; [done|]. intros k. rewrite Mz, Ma. rewrite (wsum_perm _ _ _ P). unfold wsum at 4; simpl.
    fold (wsum (fun l => wsum (fun r => occ k (default [] (jev [l; r]))) (zents R)) ls). lia.
Qed.
Lemma bjoin_outer_success o jev R ls : order_ok o -> zwf R -> (forall d c, In (d, c) ls -> c <> 0) ->
  forall n acc, is_Some (bjoin_outer o jev R n acc ls) <->
    forall l lc r rc, In (l, lc) ls -> In (r, rc) (zents R) -> jev_good jev [l; r].
Proof.
  intros Ho WR. induction ls as [|[l lc] ls IH]; simpl; intros Hn n acc.
  - split; [done|eauto].
  - destruct (entries_ok (osub o n) R) as (rs & E & H1 & _); auto using osub_ok. rewrite E; simpl.
    assert (P : Permutation rs (zents R)) by (apply (zents_entries (osub o n)); eauto using osub_ok).
    assert (Hrs : forall d c, In (d, c) rs -> c <> 0).
    { intros d c Hin. apply H1 in Hin as (k & _ & Hc & _). eapply wf_nz; eauto. }
    assert (Hlc : lc <> 0) by eauto.
    pose proof (bjoin_inner_success jev l lc rs Hlc Hrs acc) as HS.
    destruct (bjoin_inner jev l lc acc rs) as [acc'|] eqn:Ei; simpl.
    + rewrite IH by eauto. split; [|by eauto].
      intros H l' lc' r' rc' [[= <- <-]|Hin] Hr; [|by eauto].
      eapply HS; [eauto|]. eapply Permutation_in; [symmetry; exact P|exact Hr].
    + split; [by intros [? ?]|]. intros H. exfalso. destruct (proj2 HS); [|done].
      intros r c Hr. eapply (H l lc); [by left|]. eapply Permutation_in; [exact P|exact Hr].
Qed.
Lemma bjoin_spec o jev L R z : order_ok o -> zwf L -> zwf R -> bjoin o jev L R = Some z ->
  zwf z /\ forall k, zcount z k = join_mult jev [L; R] k.
Proof.
  intros Ho WL WR. unfold bjoin. destruct (entries_ok (osub o 0) L) as (ls & E & _); auto using osub_ok.
  rewrite E; simpl. intros EB. apply bjoin_outer_spec in EB as [Wz Mz]; auto using osub_ok, wf_empty.
  split; [done|]. intros k. rewrite Mz, mult_empty, join_mult_jsum. cbn [jsum].
  rewrite (wsum_perm _ ls (zents L)); [lia|]. apply (zents_entries (osub o 0)); eauto using osub_ok.
Qed.
Lemma bjoin_success o jev L R : order_ok o -> zwf L -> zwf R -> is_Some (bjoin o jev L R) <-> all_good jev [L; R].
Proof.
  intros Ho WL WR. unfold bjoin. destruct (entries_ok (osub o 0) L) as (ls & E & H1 & _); auto using osub_ok.
  rewrite E; simpl. rewrite bjoin_outer_success; auto using osub_ok.
  2:{ intros d c Hin. apply H1 in Hin as (k & _ & Hc & _). eapply (wf_nz _ WL); eauto. }
  assert (P : Permutation ls (zents L)) by (apply (zents_entries (osub o 0)); eauto using osub_ok).
  split.
  - intros H t w Hin. apply tuples_cons_in in Hin as (l & lc & t1 & w1 & -> & -> & Hl & Hin).
    apply tuples_cons_in in Hin as (r & rc & t2 & w2 & -> & -> & Hr & Hin).
    destruct Hin as [[= <- <-]|[]]. eapply H; eauto. eapply Permutation_in; [symmetry; exact P|exact Hl].
  - intros H l lc r rc Hl Hr. eapply (H [l; r] (lc * (rc * 1))).
    apply tuples_cons_in. exists l, lc, [r], (rc * 1). split; [done|]. split; [done|].
    split; [eapply Permutation_in; [exact P|exact Hl]|]. apply tuples_cons_in. exists r, rc, [], 1.
    split; [done|]. split; [done|]. split; [done|]. by left.
Qed.

(** The three terms of the incremental binary join are masks 1, 2, 3 of the
    n-ary one. *)
Lemma masks2 : seqZ 1 (2 ^ Z.of_nat 2 - 1) = [1; 2; 3].
Proof. reflexivity. Qed.

Lemma bjoin_inc_step o jev pl pr dl dr ps r : order_ok o -> zwf pl -> zwf pr -> zwf dl -> zwf dr ->
  bjoin_inc o jev pl pr dl dr = (ps, r) ->
  match r with
  | None => ps = (pl, pr) /\ ~ (all_good jev [dl; dr] /\ all_good jev [pl; dr] /\ all_good jev [dl; pr])
  | Some y => zwf ps.1 /\ zwf ps.2 /\ sums [ps.1; ps.2] [pl; pr] [dl; dr] /\ zwf y
     /\ (all_good jev [dl; dr] /\ all_good jev [pl; dr] /\ all_good jev [dl; pr])
     /\ forall k, zcount y k = join_mult jev [dl; dr] k + join_mult jev [pl; dr] k + join_mult jev [dl; pr] k
  end.
Proof.
  intros Ho Wpl Wpr Wdl Wdr. unfold bjoin_inc.
  destruct (bjoin (osub o 0) jev dl dr) as [t1|] eqn:E1; simpl.
  2:{ intros [= <- <-]. split; [done|]. intros (H & _ & _). apply (bjoin_success (osub o 0)) in H; auto using osub_ok.
      destruct H; congruence. }
  destruct (bjoin (osub o 1) jev pl dr) as [t2|] eqn:E2; simpl.
  2:{ intros [= <- <-]. split; [done|]. intros (_ & H & _). apply (bjoin_success (osub o 1)) in H; auto using osub_ok.
      destruct H; congruence. }
  destruct (bjoin (osub o 2) jev dl pr) as [t3|] eqn:E3; simpl.
  2:{ intros [= <- <-]. split; [done|]. intros (_ & _ & H). apply (bjoin_success (osub o 2)) in H; auto using osub_ok.
      destruct H; congruence. }
  assert (G1 : all_good jev [dl; dr]) by (eapply (bjoin_success (osub o 0)); [..|rewrite E1]; eauto using osub_ok).
  assert (G2 : all_good jev [pl; dr]) by (eapply (bjoin_success (osub o 1)); [..|rewrite E2]; eauto using osub_ok).
  assert (G3 : all_good jev [dl; pr]) by (eapply (bjoin_success (osub o 2)); [..|rewrite E3]; eauto using osub_ok).
  apply bjoin_spec in E1 as [W1 M1], E2 as [W2 M2], E3 as [W3 M3]; auto using osub_ok.
  destruct (zadd_spec (osub o 3) t1 t2) as (r1 & -> & Wr1 & Mr1); auto using osub_ok. simpl.
  destruct (zadd_spec (osub o 4) r1 t3) as (r2 & -> & Wr2 & Mr2); auto using osub_ok. simpl.
  destruct (zadd_spec (osub o 5) pl dl) as (pl' & -> & Wpl' & Mpl'); auto using osub_ok. simpl.
  destruct (zadd_spec (osub o 6) pr dr) as (pr' & -> & Wpr' & Mpr'); auto using osub_ok. simpl.
  intros [= <- <-]. simpl. split; [done|]. split; [done|]. split.
  { apply sums_cons. split; [done|]. apply sums_cons. split; [done|]. done. }
  split; [done|]. split; [done|]. intros k. rewrite Mr2, Mr1, M1, M2, M3. done.
Qed.

Lemma jsum_terms2 g dl dr pl pr :
  lsum (fun mask => jsum g (term_inputs 0 mask [dl; dr] [pl; pr])) (seqZ 1 (2 ^ Z.of_nat (length [dl; dr]) - 1))
  = jsum g [dl; pr] + jsum g [pl; dr] + jsum g [dl; dr].
Proof.
  change (seqZ 1 (2 ^ Z.of_nat (length [dl; dr]) - 1)) with [1; 2; 3].
  change (jsum g [dl; pr] + (jsum g [pl; dr] + (jsum g [dl; dr] + 0)) = jsum g [dl; pr] + jsum g [pl; dr] + jsum g [dl; dr]). lia.
Qed.
Lemma terms2 jev dl dr pl pr : (forall m, In m [1; 2; 3] -> all_good jev (term_inputs 0 m [dl; dr] [pl; pr])) <->
  (all_good jev [dl; dr] /\ all_good jev [pl; dr] /\ all_good jev [dl; pr]).
Proof.
  split.
  - intros H. split; [|split].
    + apply (H 3). simpl; tauto.
    + apply (H 2). simpl; tauto.
    + apply (H 1). simpl; tauto.
  - intros (H1 & H2 & H3) m [<-|[<-|[<-|[]]]]; done.
Qed.

(** The binary and the n-ary incremental join emit the same Z-sets and fail on
    the same inputs, step by step. *)
Definition bin_nary_related (jev : join_evaluator) (j1 j2 : jop) : Prop :=
  exists pl pr prevs, j1 = JBinInc jev pl pr /\ j2 = JInc jev 2 prevs /\
    zwf pl /\ zwf pr /\ length prevs = 2%nat /\ Forall zwf (map (default zempty) prevs) /\
    Forall2 zeq [pl; pr] (map (default zempty) prevs).

Lemma all_good_zeq_iff jev xs ys : jev_ok jev -> Forall zwf xs -> Forall zwf ys -> Forall2 zeq xs ys ->
  all_good jev xs <-> all_good jev ys.
Proof.
  intros Hj Wx Wy F. split; apply all_good_zeq; auto. clear -F. induction F; constructor; auto using zeq_sym.
Qed.
Lemma join_mult_zeq jev xs ys k : jev_ok jev -> Forall zwf xs -> Forall zwf ys -> Forall2 zeq xs ys ->
  join_mult jev xs k = join_mult jev ys k.
Proof. intros. rewrite !join_mult_jsum. apply jsum_zeq; auto using jev_ok_tcongr. Qed.

Lemma bin_nary_step jev j1 j2 o1 o2 dl dr : jev_ok jev -> order_ok o1 -> order_ok o2 -> zwf dl -> zwf dr ->
  bin_nary_related jev j1 j2 ->
  bin_nary_related jev (jprocess o1 j1 [dl; dr]).1 (jprocess o2 j2 [dl; dr]).1
  /\ res_eq (jprocess o1 j1 [dl; dr]).2 (jprocess o2 j2 [dl; dr]).2.
Proof.
  intros Hj H1 H2 Wdl Wdr (pl & pr & prevs & -> & -> & Wpl & Wpr & L & WP & F). simpl.
  destruct prevs as [|p1 [|p2 [|? ?]]]; try done. simpl in WP, F.
  apply Forall_cons in WP as [Wp1 WP]. apply Forall_cons in WP as [Wp2 _].
  inversion F as [|? ? ? ? Ez1 F']; subst. inversion F' as [|? ? ? ? Ez2 _]; subst.
  destruct (bjoin_inc o1 jev pl pr dl dr) as [ps r1] eqn:E1.
  destruct (join_inc o2 jev 2 [p1; p2] [dl; dr]) as [ps2 r2] eqn:E2. simpl.
  apply bjoin_inc_step in E1; auto.
  apply join_inc_step in E2; auto; [|fa..]. rewrite masks2 in E2. simpl map in E2.
  assert (EQ : (all_good jev [dl; dr] /\ all_good jev [pl; dr] /\ all_good jev [dl; pr]) <->
               (all_good jev [dl; dr] /\ all_good jev [default zempty p1; dr] /\ all_good jev [dl; default zempty p2])).
  { rewrite (all_good_zeq_iff jev [pl; dr] [default zempty p1; dr]); [|done|fa..].
    rewrite (all_good_zeq_iff jev [dl; pr] [dl; default zempty p2]); [|done|fa..]. done. }
  destruct r1 as [y1|], r2 as [y2|].
  - destruct E1 as (W1 & W2 & HS1 & Wy1 & _ & M1).
    destruct E2 as (Ps' & -> & WP' & HS2 & Wy2 & M2 & _ & _).
    destruct Ps' as [|q1 [|q2 [|? ?]]]; try by destruct HS2 as (? & _).
    apply Forall_cons in WP' as [Wq1 WP']. apply Forall_cons in WP' as [Wq2 _].
    pose proof HS1 as HS1'. pose proof HS2 as HS2'.
    apply sums_cons in HS1 as [A1 HS1]. apply sums_cons in HS1 as [A2 _].
    apply sums_cons in HS2 as [B1 HS2]. apply sums_cons in HS2 as [B2 _].
    assert (F1 : zeq ps.1 q1). { intros k. rewrite A1, B1, (Ez1 k). done. }
    assert (F2 : zeq ps.2 q2). { intros k. rewrite A2, B2, (Ez2 k). done. }
    split.
    + exists ps.1, ps.2, [Some q1; Some q2]. simpl. split_and!; fa.
    + intros k. rewrite M1, M2.
      rewrite <- (join_mult_zeq jev [ps.1; ps.2] [q1; q2]); [|done|fa..].
      rewrite <- (join_mult_zeq jev [pl; pr] [default zempty p1; default zempty p2]); [|done|fa..].
      rewrite !join_mult_jsum.
      rewrite <- (jsum_delta _ [ps.1; ps.2] [pl; pr] [dl; dr]); [|fa..|done|by apply jev_ok_tcongr].
      rewrite jsum_terms2. lia.
  - exfalso. destruct E1 as (_ & _ & _ & _ & HG & _). destruct E2 as [_ (m & Hm & Hbad)].
    apply EQ in HG. apply Hbad. by apply (proj2 (terms2 jev dl dr _ _) HG).
  - exfalso. destruct E1 as (_ & Hbad). destruct E2 as (Ps' & _ & _ & _ & _ & _ & _ & HG).
    apply Hbad, EQ. by apply terms2.
  - destruct E1 as (-> & _). destruct E2 as (-> & _). split; [|done].
    exists pl, pr, [Some (default zempty p1); Some (default zempty p2)]. simpl.
    split_and!; fa.
Qed.

Lemma jprocess_run_jrun o j dss j' outs : order_ok o -> forall n,
  jprocess_run o n j dss = (j', map Some outs) -> jrun j dss outs.
Proof.
  intros Ho. revert j outs. induction dss as [|ds dss IH]; intros j outs n; simpl.
  - intros [= _ E]. destruct outs; [constructor|done].
  - destruct (jprocess (osub o n) j ds) as [j1 r] eqn:E1.
    destruct (jprocess_run o (S n) j1 dss) as [j2 rs] eqn:E2.
    destruct outs as [|y outs]; [done|]. simpl. intros [= <- -> ->].
    eapply jrun_cons; [by apply osub_ok|exact E1|]. eauto.
Qed.

Lemma bin_nary_stream jev o1 o2 pairs : jev_ok jev -> order_ok o1 -> order_ok o2 ->
  Forall (fun p : zset * zset => zwf p.1 /\ zwf p.2) pairs ->
  Forall2 res_eq (jprocess_run o1 0 (new_inc_bin_join jev) (map (fun p => [p.1; p.2]) pairs)).2
                 (jprocess_run o2 0 (new_inc_join jev 2) (map (fun p => [p.1; p.2]) pairs)).2.
Proof.
  intros Hj H1 H2 Wp.
  assert (HR : bin_nary_related jev (new_inc_bin_join jev) (new_inc_join jev 2)).
  { exists zempty, zempty, [None; None]. simpl. split_and!; fa; auto using wf_empty. }
  revert HR. generalize (new_inc_bin_join jev) (new_inc_join jev 2). intros j1 j2 HR. generalize 0%nat at 1. generalize 0%nat.
  intros m n. revert j1 j2 n m HR.
  induction Wp as [|[dl dr] pairs [Wl Wr] Wp IH]; intros j1 j2 n m HR; cbn [map jprocess_run]; [constructor|].
  destruct (bin_nary_step jev j1 j2 (osub o1 n) (osub o2 m) dl dr) as [HR' Hres]; auto using osub_ok.
  cbn [fst snd].
  destruct (jprocess (osub o1 n) j1 [dl; dr]) as [j1' r1], (jprocess (osub o2 m) j2 [dl; dr]) as [j2' r2].
  simpl in HR', Hres. specialize (IH j1' j2' (S n) (S m) HR').
  destruct (jprocess_run o1 (S n) j1' _) as [j1'' rs1], (jprocess_run o2 (S m) j2' _) as [j2'' rs2].
  constructor; done.
Qed.

(** Binary join over a stream. *)
Lemma jrun_bin_inc jev pl pr dss outs : jev_ok jev -> jrun (JBinInc jev pl pr) dss outs ->
  zwf pl -> zwf pr -> Forall (Forall zwf) dss ->
  forall L R, zwf L -> zwf R -> columns [L; R] [pl; pr] dss ->
  (all_good jev [pl; pr] -> all_good jev [L; R])
  /\ forall k, total outs k = join_mult jev [L; R] k - join_mult jev [pl; pr] k.
Proof.
  intros Hj Rn. remember (JBinInc jev pl pr) as j eqn:Ej. revert pl pr Ej.
  induction Rn as [j|o j ds j1 y dss ys Ho E Rn IH]; intros pl pr -> Wpl Wpr Wd L R WL WR HC.
  - assert (F : Forall2 zeq [L; R] [pl; pr]).
    { destruct HC as [_ HC]. constructor; [|constructor; [|constructor]]; intros k.
      - rewrite (HC 0%nat L pl eq_refl eq_refl). simpl. lia.
      - rewrite (HC 1%nat R pr eq_refl eq_refl). simpl. lia. }
    split.
    + apply all_good_zeq_iff; auto; try (fa).
    + intros k. rewrite (join_mult_zeq jev [L; R] [pl; pr]); auto; try (fa). unfold total; simpl; lia.
  - apply Forall_cons in Wd as [Wd Wds]. simpl in E.
    destruct ds as [|dl [|dr [|? ?]]]; try done.
    apply Forall_cons in Wd as [Wdl Wd]. apply Forall_cons in Wd as [Wdr _].
    destruct (bjoin_inc o jev pl pr dl dr) as [ps r] eqn:EB. injection E as <- ->.
    apply bjoin_inc_step in EB as (W1 & W2 & HS & Wy & HG & My); auto.
    pose proof HS as HS'. apply sums_cons in HS as [A1 HS]. apply sums_cons in HS as [A2 _].
    destruct (IH ps.1 ps.2 eq_refl W1 W2 Wds L R WL WR) as [IHG IHM].
    { destruct HC as [_ HC]. split; [done|]. intros i a p Ha Hp k.
      destruct i as [|[|i]]; simpl in Ha, Hp; try done; injection Ha as <-; injection Hp as <-.
      - rewrite (HC 0%nat L pl eq_refl eq_refl). simpl. rewrite A1. lia.
      - rewrite (HC 1%nat R pr eq_refl eq_refl). simpl. rewrite A2. lia. }
    split.
    + intros HG0. apply IHG. intros t w Hin.
      destruct (tuples_mask [dl; dr] [ps.1; ps.2] [pl; pr] t w) as (m & t' & w' & Hm & Hin' & F); auto;
        try (fa).
      eapply jev_ok_good; eauto. change (seqZ 0 (2 ^ Z.of_nat (length [dl; dr]))) with [0; 1; 2; 3] in Hm.
      destruct Hm as [<-|Hm]; [by eapply HG0|]. eapply (proj2 (terms2 jev dl dr pl pr) HG m); eauto.
    + intros k. rewrite total_cons, IHM, My. rewrite !join_mult_jsum.
      assert (jsum (fun t => occ k (default [] (jev t))) [ps.1; ps.2] - jsum (fun t => occ k (default [] (jev t))) [pl; pr]
        = jsum (fun t => occ k (default [] (jev t))) [dl; dr] + jsum (fun t => occ k (default [] (jev t))) [pl; dr]
          + jsum (fun t => occ k (default [] (jev t))) [dl; pr]); [|lia].
      rewrite <- (jsum_delta _ [ps.1; ps.2] [pl; pr] [dl; dr]); [|fa..|done|by apply jev_ok_tcongr].
      rewrite jsum_terms2. lia.
Qed.
Lemma bjoin_inc_stream jev dss outs L R o : jev_ok jev -> order_ok o ->
  jrun (new_inc_bin_join jev) dss outs -> Forall (Forall zwf) dss -> zwf L -> zwf R ->
  (forall k, zcount L k = lsum (fun ds => zcount (default zempty (ds !! 0%nat)) k) dss) ->
  (forall k, zcount R k = lsum (fun ds => zcount (default zempty (ds !! 1%nat)) k) dss) ->
  exists y, bjoin o jev L R = Some y /\ is_total y outs /\ forall k, zcount y k = join_mult jev [L; R] k.
Proof.
  intros Hj Ho Rn Wd WL WR HL HR.
  destruct (jrun_bin_inc jev zempty zempty dss outs Hj Rn wf_empty wf_empty Wd L R WL WR) as [HG HM].
  { split; [done|]. intros i a p Ha Hp k. destruct i as [|[|i]]; simpl in Ha, Hp; try done;
      injection Ha as <-; injection Hp as <-; rewrite mult_empty; [rewrite HL|rewrite HR]; lia. }
  pose proof (all_good_repeat_empty jev 2 ltac:(lia)) as G0. simpl in G0.
  specialize (HG G0). apply (bjoin_success o) in HG as [y Ey]; auto.
  exists y. split; [done|]. apply bjoin_spec in Ey as [Wy My]; auto. split; [|done]. split; [done|].
  intros k. rewrite My, HM. pose proof (join_mult_repeat_empty jev 2 k ltac:(lia)) as H0. simpl in H0. rewrite H0. lia.
Qed.

(** ** Order independence *)
Lemma cjoin_order jev o1 o2 xs ys : jev_ok jev -> order_ok o1 -> order_ok o2 ->
  Forall zwf xs -> Forall zwf ys -> Forall2 zeq xs ys ->
  res_eq (cjoin o1 jev xs [] 1) (cjoin o2 jev ys [] 1).
Proof.
  intros Hj H1 H2 Wx Wy F.
  pose proof (cjoin_top_success jev xs o1 Wx H1) as S1. pose proof (cjoin_top_success jev ys o2 Wy H2) as S2.
  rewrite <- (all_good_zeq_iff jev xs ys Hj Wx Wy F) in S2.
  destruct (cjoin o1 jev xs [] 1) as [y1|] eqn:E1, (cjoin o2 jev ys [] 1) as [y2|] eqn:E2; simpl; try done.
  - apply cjoin_top in E1 as [_ M1], E2 as [_ M2]; auto. intros k. rewrite M1, M2. by apply join_mult_zeq.
  - destruct (proj2 S2) as [? ?]; [|done]. apply S1. eauto.
  - destruct (proj2 S1) as [? ?]; [|done]. apply S2. eauto.
Qed.
Lemma join_snapshot_order jev n o1 o2 xs ys : jev_ok jev -> order_ok o1 -> order_ok o2 ->
  Forall zwf xs -> Forall zwf ys -> Forall2 zeq xs ys ->
  res_eq (join_snapshot o1 jev n xs) (join_snapshot o2 jev n ys).
Proof.
  intros Hj H1 H2 Wx Wy F. unfold join_snapshot. rewrite (Forall2_length _ _ _ F).
  case_decide; [|done]. by apply cjoin_order.
Qed.
Lemma bjoin_order jev o1 o2 l1 r1 l2 r2 : jev_ok jev -> order_ok o1 -> order_ok o2 ->
  zwf l1 -> zwf r1 -> zwf l2 -> zwf r2 -> zeq l1 l2 -> zeq r1 r2 ->
  res_eq (bjoin o1 jev l1 r1) (bjoin o2 jev l2 r2).
Proof.
  intros Hj H1 H2 Wl1 Wr1 Wl2 Wr2 El Er.
  pose proof (bjoin_success o1 jev l1 r1 H1 Wl1 Wr1) as S1. pose proof (bjoin_success o2 jev l2 r2 H2 Wl2 Wr2) as S2.
  rewrite <- (all_good_zeq_iff jev [l1; r1] [l2; r2]) in S2; [|done|fa..].
  destruct (bjoin o1 jev l1 r1) as [y1|] eqn:E1, (bjoin o2 jev l2 r2) as [y2|] eqn:E2; simpl; try done.
  - apply bjoin_spec in E1 as [_ M1], E2 as [_ M2]; auto. intros k. rewrite M1, M2. apply join_mult_zeq; fa.
  - destruct (proj2 S2) as [? ?]; [|done]. apply S1. eauto.
  - destruct (proj2 S1) as [? ?]; [|done]. apply S2. eauto.
Qed.

Definition inc_related (jev : join_evaluator) (n : nat) (j1 j2 : jop) : Prop :=
  exists ps qs, j1 = JInc jev n ps /\ j2 = JInc jev n qs /\ length ps = n /\
    Forall zwf (map (default zempty) ps) /\ Forall zwf (map (default zempty) qs) /\
    Forall2 zeq (map (default zempty) ps) (map (default zempty) qs).
Lemma term_inputs_zeq i m d1 : forall d2 p1 p2, Forall2 zeq d1 d2 -> Forall2 zeq p1 p2 ->
  Forall2 zeq (term_inputs i m d1 p1) (term_inputs i m d2 p2).
Proof.
  revert i. induction d1 as [|x d1 IH]; intros i d2 p1 p2 F1 F2; inversion F1; subst; simpl; [constructor|].
  inversion F2; subst; constructor; [by case_match|auto].
Qed.
Lemma sums_zeq As Bs Ps Qs Ds Es : sums As Ps Ds -> sums Bs Qs Es -> Forall2 zeq Ps Qs -> Forall2 zeq Ds Es -> Forall2 zeq As Bs.
Proof.
  intros (L1 & L2 & H) (L3 & L4 & H') FP FD.
  pose proof (Forall2_length _ _ _ FP). pose proof (Forall2_length _ _ _ FD).
  apply Forall2_same_length_lookup. split; [lia|]. intros i a b Ha Hb k.
  destruct (lookup_lt_is_Some_2 Ps i) as [p Hp]; [apply lookup_lt_Some in Ha; lia|].
  destruct (lookup_lt_is_Some_2 Ds i) as [d Hd]; [apply lookup_lt_Some in Ha; lia|].
  destruct (lookup_lt_is_Some_2 Qs i) as [q Hq]; [apply lookup_lt_Some in Ha; lia|].
  destruct (lookup_lt_is_Some_2 Es i) as [e He]; [apply lookup_lt_Some in Ha; lia|].
  rewrite (H i a p d Ha Hp Hd k), (H' i b q e Hb Hq He k).
  rewrite (Forall2_lookup_lr _ _ _ i p q FP Hp Hq k), (Forall2_lookup_lr _ _ _ i d e FD Hd He k). done.
Qed.
Lemma map_default_some (xs : list zset) : map (default zempty) (map Some xs) = xs.
Proof. rewrite map_map. apply map_id. Qed.
Lemma inc_related_step jev n j1 j2 o1 o2 ds es : jev_ok jev -> order_ok o1 -> order_ok o2 ->
  Forall zwf ds -> Forall zwf es -> Forall2 zeq ds es -> inc_related jev n j1 j2 ->
  inc_related jev n (jprocess o1 j1 ds).1 (jprocess o2 j2 es).1
  /\ res_eq (jprocess o1 j1 ds).2 (jprocess o2 j2 es).2.
Proof.
  intros Hj H1 H2 Wd We F (ps & qs & -> & -> & L & Wp & Wq & FP).
  pose proof (Forall2_length _ _ _ F) as LF. pose proof (Forall2_length _ _ _ FP) as LP. rewrite !map_length in LP.
  destruct (decide (length ds = n)) as [Ld|Ld].
  2:{ simpl. unfold join_inc. rewrite !decide_False by (try rewrite <- LF; done). simpl. split; [|done]. exists ps, qs. done. }
  simpl. destruct (join_inc o1 jev n ps ds) as [ps' r1] eqn:E1, (join_inc o2 jev n qs es) as [qs' r2] eqn:E2. simpl.
  apply join_inc_step in E1; auto. apply join_inc_step in E2; auto; try lia.
  assert (EQ : forall m, all_good jev (term_inputs 0 m ds (map (default zempty) ps)) <->
                         all_good jev (term_inputs 0 m es (map (default zempty) qs))).
  { intros m. apply all_good_zeq_iff; auto using term_inputs_wf, term_inputs_zeq. }
  destruct r1 as [y1|], r2 as [y2|].
  - destruct E1 as (Ps' & -> & WP' & HS1 & Wy1 & M1 & _). destruct E2 as (Qs' & -> & WQ' & HS2 & Wy2 & M2 & _).
    assert (FZ : Forall2 zeq Ps' Qs') by (eapply sums_zeq; eauto).
    split.
    + exists (map Some Ps'), (map Some Qs'). rewrite !map_default_some. split_and!; try done.
      rewrite map_length. destruct HS1 as (? & ? & _). lia.
    + intros k. rewrite M1, M2, (join_mult_zeq jev Ps' Qs'), (join_mult_zeq jev (map (default zempty) ps) (map (default zempty) qs)); auto.
  - exfalso. destruct E1 as (Ps' & _ & _ & _ & _ & _ & _ & HG). destruct E2 as (_ & m & Hm & Hb). apply Hb, EQ, HG, Hm.
  - exfalso. destruct E2 as (Ps' & _ & _ & _ & _ & _ & _ & HG). destruct E1 as (_ & m & Hm & Hb). apply Hb, EQ, HG, Hm.
  - destruct E1 as (-> & _), E2 as (-> & _). split; [|done].
    eexists _, _. split; [done|]. split; [done|]. rewrite !map_default_some, !map_length. done.
Qed.
Lemma inc_join_order_stream jev n o1 o2 dss : jev_ok jev -> order_ok o1 -> order_ok o2 -> Forall (Forall zwf) dss ->
  Forall2 res_eq (jprocess_run o1 0 (new_inc_join jev n) dss).2 (jprocess_run o2 0 (new_inc_join jev n) dss).2.
Proof.
  intros Hj H1 H2 Wd.
  assert (HR : inc_related jev n (new_inc_join jev n) (new_inc_join jev n)).
  { exists (repeat None n), (repeat None n). split; [done|]. split; [done|]. split; [apply repeat_length|].
    assert (Em : map (default zempty) (repeat (@None zset) n) = repeat zempty n) by (clear; induction n; simpl; congruence).
    rewrite Em. assert (Forall zwf (repeat zempty n)) by (apply Forall_forall; intros x Hx; apply elem_of_list_In, repeat_spec in Hx as ->; apply wf_empty).
    split; [done|]. split; [done|]. apply Forall_Forall2_diag, Forall_forall. done. }
  revert HR. generalize (new_inc_join jev n) at 1 3. generalize (new_inc_join jev n). intros j2 j1 HR. generalize 0%nat.
  intros m. revert j1 j2 m HR.
  induction Wd as [|ds dss Wd Wds IH]; intros j1 j2 m HR; cbn [jprocess_run]; [constructor|].
  destruct (inc_related_step jev n j1 j2 (osub o1 m) (osub o2 m) ds ds) as [HR' Hres]; auto using osub_ok.
  { apply Forall_Forall2_diag, Forall_forall. done. }
  destruct (jprocess (osub o1 m) j1 ds) as [j1' r1], (jprocess (osub o2 m) j2 ds) as [j2' r2].
  simpl in HR', Hres. specialize (IH j1' j2' (S m) HR').
  destruct (jprocess_run o1 (S m) j1' _) as [j1'' rs1], (jprocess_run o2 (S m) j2' _) as [j2'' rs2].
  constructor; done.
Qed.

Lemma jrun_take j dss outs n : jrun j dss outs -> jrun j (take n dss) (take n outs).
Proof.
  intros R. revert n. induction R as [j|o j ds j1 y dss ys Ho E R IH]; intros n.
  - rewrite !take_nil. constructor.
  - destruct n; simpl; [constructor|]. eapply jrun_cons; eauto.
Qed.
Lemma c07_stream jev n o dss j' outs m As o' : (0 < n)%nat -> jev_ok jev -> order_ok o -> order_ok o' ->
  Forall (Forall zwf) dss -> jprocess_run o 0 (new_inc_join jev n) dss = (j', map Some outs) ->
  length As = n -> Forall zwf As ->
  (forall i a, As !! i = Some a -> forall k, zcount a k = lsum (fun ds => zcount (default zempty (ds !! i)) k) (take m dss)) ->
  exists y, join_snapshot o' jev n As = Some y /\ is_total y (take m outs) /\ forall k, zcount y k = join_mult jev As k.
Proof.
  intros Hn Hj Ho Ho' Wd R L WA HA. apply jprocess_run_jrun in R; [|done]. apply (jrun_take _ _ _ m) in R.
  eapply join_inc_stream; eauto. by apply Forall_take.
Qed.
Lemma c08_stream jev o dss j' outs m L R o' : jev_ok jev -> order_ok o -> order_ok o' ->
  Forall (Forall zwf) dss -> jprocess_run o 0 (new_inc_bin_join jev) dss = (j', map Some outs) ->
  zwf L -> zwf R ->
  (forall k, zcount L k = lsum (fun ds => zcount (default zempty (ds !! 0%nat)) k) (take m dss)) ->
  (forall k, zcount R k = lsum (fun ds => zcount (default zempty (ds !! 1%nat)) k) (take m dss)) ->
  exists y, bjoin o' jev L R = Some y /\ is_total y (take m outs) /\ forall k, zcount y k = join_mult jev [L; R] k.
Proof.
  intros Hj Ho Ho' Wd Rn WL WR HL HR. apply jprocess_run_jrun in Rn; [|done]. apply (jrun_take _ _ _ m) in Rn.
  eapply bjoin_inc_stream; eauto. by apply Forall_take.
Qed.
End joins.
