(** Proofs about @gather (C10). *)
From Verif Require Import ZSetModel OpsModel ExecModel ZSetSpec ZSetProofs ZSetProofs2 OpsSpec OpsProofs ExecSpec StreamProofs JoinProofs GatherSpec.

Section gather.
Context {DD : Docs}.
Variable sortv : list val -> list val.
Implicit Types (kx vx : extractor) (agg : aggregator).

Lemma gather_groups_success kx vx es : forall gs,
  is_Some (gather_groups kx vx gs es) <-> Forall (fun e => extracts kx vx e.1) es.
Proof.
  induction es as [|[d m] es IH]; intros gs; simpl; [split; eauto|].
  rewrite Forall_cons. simpl. unfold extracts at 1. destruct (kx d) as [[gk|]|]; simpl.
  - destruct (vx d) as [[v|]|]; simpl.
    + destruct (vjson gk) as [j|]; simpl.
      * rewrite IH. split; [intros H; split; [eauto|done]|by intros [_ H]].
      * split; [by intros [? ?]|intros [[? ?] _]; done].
    + rewrite IH. by split; [|intros [_ ?]].
    + split; [by intros [? ?]|by intros [? _]].
  - rewrite IH. by split; [|intros [_ ?]].
  - split; [by intros [? ?]|by intros [? _]].
Qed.

Lemma gather_groups_spec kx vx es : Forall (fun e : doc * Z => 0 <= e.2) es -> forall gs gs', gather_groups kx vx gs es = Some gs' ->
  forall j,
    match gs !! j with
    | Some g => gs' !! j = Some (GroupData (gd_key g) (gd_values g ++ group_values kx vx j es) (gd_doc g))
    | None =>
        (gs' !! j = None /\ Forall (fun e => group_of kx vx e.1 <> Some j) es)
        \/ exists d m gk, In (d, m) es /\ group_of kx vx d = Some j /\ kx d = Some (Some gk)
             /\ gs' !! j = Some (GroupData gk (group_values kx vx j es) d)
    end.
Proof.
  induction 1 as [|[d m] es Hm Hes IH]; intros gs gs' E j.
  - injection E as <-. destruct (gs !! j) as [[? ? ?]|] eqn:Eg; simpl; [by rewrite app_nil_r|left; done].
  - simpl in E. simpl in Hm.
    assert (Skip : group_of kx vx d = None -> gather_groups kx vx gs es = Some gs' ->
      match gs !! j with
      | Some g => gs' !! j = Some (GroupData (gd_key g) (gd_values g ++ group_values kx vx j ((d, m) :: es)) (gd_doc g))
      | None => (gs' !! j = None /\ Forall (fun e => group_of kx vx e.1 <> Some j) ((d, m) :: es))
        \/ exists d0 m0 gk, In (d0, m0) ((d, m) :: es) /\ group_of kx vx d0 = Some j /\ kx d0 = Some (Some gk)
             /\ gs' !! j = Some (GroupData gk (group_values kx vx j ((d, m) :: es)) d0)
      end).
    { intros Hg Hgs. specialize (IH gs gs' Hgs j).
      assert (EV : group_values kx vx j ((d, m) :: es) = group_values kx vx j es).
      { unfold group_values. simpl. rewrite decide_False; [done|]. by rewrite Hg. }
      rewrite EV. destruct (gs !! j); [done|]. destruct IH as [[? ?]|(d0 & m0 & gk & Hin & ?)].
      - left. split; [done|]. constructor; [simpl; by rewrite Hg|done].
      - right. exists d0, m0, gk. split; [by right|done]. }
    destruct (kx d) as [[gk|]|] eqn:Ek; simpl in E; try done.
    2:{ apply Skip; [unfold group_of; by rewrite Ek|done]. }
    destruct (vx d) as [[v|]|] eqn:Ev; simpl in E; try done.
    2:{ apply Skip; [unfold group_of; by rewrite Ek, Ev|done]. }
    destruct (vjson gk) as [j0|] eqn:Ej; simpl in E; [|done]. clear Skip.
    assert (Hg : group_of kx vx d = Some j0) by (unfold group_of; by rewrite Ek, Ev).
    specialize (IH _ _ E j). destruct (decide (j = j0)) as [->|Hne].
    + rewrite lookup_insert in IH. cbn [gd_key gd_values gd_doc] in IH.
      assert (EV : group_values kx vx j0 ((d, m) :: es) = repeat v (Z.to_nat m) ++ group_values kx vx j0 es).
      { unfold group_values. simpl. rewrite decide_True by done. by rewrite Ev. }
      assert (EU : forall vs, upd_values vs v m = vs ++ repeat v (Z.to_nat m)).
      { intros vs. unfold upd_values. destruct (0 <? m) eqn:E0; [done|]. assert (m = 0) as -> by lia. simpl. by rewrite app_nil_r. }
      rewrite EV. destruct (gs !! j0) as [g|] eqn:Eg; cbn [default gd_key gd_values gd_doc] in IH.
      * rewrite IH. rewrite EU, <- app_assoc. done.
      * right. exists d, m, gk. split; [by left|]. split_and!; try done. rewrite IH, EU. done.
    + rewrite lookup_insert_ne in IH by done.
      assert (EV : group_values kx vx j ((d, m) :: es) = group_values kx vx j es).
      { unfold group_values. simpl. rewrite decide_False; [done|]. rewrite Hg. congruence. }
      rewrite EV. destruct (gs !! j) as [g|] eqn:Eg; [done|]. destruct IH as [[? ?]|(d1 & m1 & gk1 & Hin & ?)].
      * left. split; [done|]. constructor; [simpl; rewrite Hg; congruence|done].
      * right. exists d1, m1, gk1. split; [by right|done].
Qed.

Local Notation agg_values := (agg_values sortv).
Definition agg_out agg (g : group_data) : option doc := agg (gd_doc g) (gd_key g) (agg_values (gd_values g)).

Lemma gather_aggregate_cons agg acc i g l : gather_aggregate sortv agg acc ((i, g) :: l)
  = (d ← agg_out agg g; acc' ← add_doc acc d 1; gather_aggregate sortv agg acc' l).
Proof. unfold agg_out, agg_values. simpl. by destruct (gd_values g) as [|? [|? ?]]. Qed.
Lemma gather_aggregate_spec agg l : forall acc, zwf acc ->
  (is_Some (gather_aggregate sortv agg acc l) <-> Forall (fun x => exists d, agg_out agg x.2 = Some d /\ is_Some (key d)) l)
  /\ forall y, gather_aggregate sortv agg acc l = Some y ->
       zwf y /\ exists outs, mapM (fun x => agg_out agg x.2) l = Some outs /\ forall k, zcount y k = zcount acc k + occ k outs.
Proof.
  induction l as [|[i g] l IH]; intros acc W.
  - simpl. split; [split; [by constructor|eauto]|]. intros y [= <-]. split; [done|]. exists []. split; [done|]. intros k. unfold occ. simpl. lia.
  - rewrite gather_aggregate_cons.
    rewrite Forall_cons. cbn [mapM snd]. destruct (agg_out agg g) as [d|] eqn:Ea; simpl.
    2:{ split; [|done]. split; [by intros [? ?]|intros [(? & ? & ?) _]; done]. }
    destruct (key d) as [k0|] eqn:Ek.
    2:{ replace (add_doc acc d 1) with (@None zset) by (unfold add_doc; simpl; by rewrite Ek). simpl.
        split; [|done]. split; [by intros [? ?]|]. intros [(? & [= <-] & [? ?]) _]. congruence. }
    destruct (add_doc acc d 1) as [acc'|] eqn:Ed.
    2:{ exfalso. unfold add_doc in Ed. simpl in Ed. rewrite Ek in Ed. destruct (counts acc !! k0); case_match; done. }
    simpl. destruct (add_doc_spec acc d 1 acc' W Ed) as [W' M']. destruct (IH acc' W') as [IH1 IH2]. split.
    + rewrite IH1. split; [intros H; split; [by exists d; rewrite Ek; eauto|done]|by intros [_ H]].
    + intros y Hy. destruct (IH2 y Hy) as (Wy & outs & Eo & Mo). split; [done|]. exists (d :: outs). rewrite Eo. simpl. split; [done|].
      intros k. rewrite Mo. rewrite M'. unfold occ. simpl. case_decide; lia.
Qed.

Lemma entries_nonneg o z es : order_ok o -> zwf z -> nonneg z -> entries o z = Some es -> Forall (fun e : doc * Z => 0 <= e.2) es.
Proof.
  intros Ho W N E. apply List.Forall_forall. intros [d c] Hin. simpl.
  apply (Permutation_in _ (zents_entries o z es Ho W E)) in Hin.
  apply zents_in in Hin as (k & Hd & Hc); [|done]. specialize (N k). unfold zcount in N. by rewrite Hc in N.
Qed.
Lemma gather_unfold o kx vx agg z es gs : entries (osub o 0) z = Some es -> gather_groups kx vx ∅ es = Some gs ->
  gather o sortv kx vx agg z = gather_aggregate sortv agg zempty (o group_data [1%nat] gs).
Proof. intros E1 E2. unfold gather. rewrite E1. simpl. by rewrite E2. Qed.
Lemma group_values_perm kx vx j es es' : Permutation es es' -> Permutation (group_values kx vx j es) (group_values kx vx j es').
Proof. intros H. unfold group_values. by rewrite H. Qed.

Lemma mapM_in {A B} (f : A -> option B) l : forall l', mapM f l = Some l' ->
  (forall x, In x l -> exists y, f x = Some y /\ In y l') /\ (forall y, In y l' -> exists x, In x l /\ f x = Some y).
Proof.
  induction l as [|a l IH]; simpl; intros l' E; [injection E as <-; done|].
  destruct (f a) as [b|] eqn:Ea; [|done]. simpl in E. destruct (mapM f l) as [l2|] eqn:El; [|done]. simpl in E. injection E as <-.
  destruct (IH l2 eq_refl) as [H1 H2]. split.
  - intros x [->|Hx]; [exists b; split; [done|by left]|]. destruct (H1 x Hx) as (y & ? & ?). exists y. split; [done|by right].
  - intros y [->|Hy]; [exists a; split; [by left|done]|]. destruct (H2 y Hy) as (x & ? & ?). exists x. split; [by right|done].
Qed.

Lemma c10_groups o kx vx agg z y : order_ok o -> zwf z -> nonneg z -> gather o sortv kx vx agg z = Some y ->
  zwf y /\ exists outs : list (ident * doc),
    NoDup (map fst outs)
    /\ (forall j, In j (map fst outs) <-> exists k d, docs z !! k = Some d /\ group_of kx vx d = Some j)
    /\ (forall j r, In (j, r) outs -> exists k d gk vs, docs z !! k = Some d /\ group_of kx vx d = Some j /\ kx d = Some (Some gk)
          /\ Permutation vs (group_values kx vx j (zents z)) /\ agg d gk (agg_values vs) = Some r /\ is_Some (key r))
    /\ forall k, zcount y k = occ k (map snd outs).
Proof.
  intros Ho W N E.
  destruct (entries_ok (osub o 0) z) as (es & Ee & _); auto using osub_ok.
  pose proof (zents_entries (osub o 0) z es (osub_ok o 0 Ho) W Ee) as PE.
  pose proof (entries_nonneg (osub o 0) z es (osub_ok o 0 Ho) W N Ee) as NE.
  destruct (gather_groups kx vx ∅ es) as [gs|] eqn:Eg.
  2:{ unfold gather in E. rewrite Ee in E. simpl in E. by rewrite Eg in E. }
  rewrite (gather_unfold o kx vx agg z es gs Ee Eg) in E.
  pose proof (gather_groups_spec kx vx es NE ∅ gs Eg) as G.
  assert (PL : Permutation (o group_data [1%nat] gs) (map_to_list gs)) by apply Ho.
  destruct (gather_aggregate_spec agg (o group_data [1%nat] gs) zempty wf_empty) as [HI HA].
  apply proj1 in HI. specialize (HI (ex_intro _ y E)). rewrite List.Forall_forall in HI.
  destruct (HA y E) as (Wy & outs & Em & Mo). split; [done|].
  set (l := o group_data [1%nat] gs) in *.
  assert (EL : length outs = length l) by (symmetry; eapply Forall2_length, mapM_Some_1; exact Em).
  exists (zip (map fst l) outs).
  assert (EF : map fst (zip (map fst l) outs) = map fst l).
  { rewrite fst_zip; [done|]. rewrite map_length. lia. }
  assert (ES : map snd (zip (map fst l) outs) = outs).
  { rewrite snd_zip; [done|]. rewrite map_length. lia. }
  assert (IN : forall j g, In (j, g) l <-> gs !! j = Some g).
  { intros j g. rewrite <- elem_of_list_In, PL. apply elem_of_map_to_list. }
  assert (MEM : forall j, (exists e, In e es /\ group_of kx vx e.1 = Some j) <-> exists k d, docs z !! k = Some d /\ group_of kx vx d = Some j).
  { intros j. split.
    - intros ([d c] & Hin & Hg). apply (Permutation_in _ PE) in Hin. apply zents_in in Hin as (k & Hd & _); [|done]. eauto.
    - intros (k & d & Hd & Hg). assert (is_Some (counts z !! k)) as [c Hc] by (apply elem_of_dom; rewrite <- (wf_dom _ W); by apply elem_of_dom_2 in Hd).
      exists (d, c). split; [|done]. apply (Permutation_in _ (Permutation_sym PE)).
      apply zents_in; [done|]. eauto. }
  split; [|split; [|split]].
  - rewrite EF. change (NoDup (l.*1)). rewrite PL. apply NoDup_fst_map_to_list.
  - intros j. rewrite EF, <- MEM, in_map_iff. specialize (G j). rewrite lookup_empty in G. split.
    + intros ([j' g] & Ej & Hin). simpl in Ej. subst j'. apply IN in Hin.
      destruct G as [[Hn _]|(d & m & gk & Hd & Hg & _)]; [congruence|]. exists (d, m). done.
    + intros (e & He & Hg). destruct G as [[_ F]|(d & m & gk & _ & _ & _ & Hl)].
      * rewrite List.Forall_forall in F. by apply F in He.
      * exists (j, GroupData gk (group_values kx vx j es) d). split; [done|]. by apply IN.
  - intros j r Hin.
    assert (exists g, In (j, g) l /\ agg_out agg g = Some r) as (g & Hl & Ha).
    { clear -Em Hin. revert outs Em Hin. induction l as [|[i g] l IH]; intros outs Em Hin; [done|].
      cbn [mapM mret option_ret] in Em. cbn [snd] in Em. destruct (agg_out agg g) as [d|] eqn:Ea; [|done]. cbn in Em.
      destruct (mapM _ l) as [outs'|] eqn:El; [|done]. cbn in Em. injection Em as <-. simpl in Hin.
      destruct Hin as [[= -> ->]|Hin]; [exists g; split; [by left|done]|].
      destruct (IH _ eq_refl Hin) as (g' & ? & ?). exists g'. split; [by right|done]. }
    assert (is_Some (key r)) as Hkr by (destruct (HI (j, g) Hl) as (r' & Hr' & Hk'); simpl in Hr'; rewrite Ha in Hr'; by injection Hr' as ->).
    apply IN in Hl. specialize (G j). rewrite lookup_empty in G. destruct G as [[Hn _]|(d & m & gk & Hd & Hg & Hk & Hl')]; [congruence|].
    rewrite Hl in Hl'. injection Hl' as ->. apply (Permutation_in _ PE) in Hd. apply zents_in in Hd as (k & Hd & _); [|done].
    exists k, d, gk, (group_values kx vx j es). split_and!; try done. by apply group_values_perm.
  - intros k. rewrite ES, Mo. unfold zcount at 1. simpl. rewrite lookup_empty. simpl. lia.
Qed.

(** Determinism *)
Lemma extracts_ok kx vx d1 d2 k : ext_ok kx -> ext_ok vx -> key d1 = Some k -> key d2 = Some k -> extracts kx vx d1 -> extracts kx vx d2.
Proof.
  intros Hk Hv E1 E2. unfold extracts. specialize (Hk d1 d2 k E1 E2). specialize (Hv d1 d2 k E1 E2).
  destruct (kx d1) as [[g1|]|], (kx d2) as [[g2|]|]; try done.
  destruct (vx d1) as [[v1|]|], (vx d2) as [[v2|]|]; try done. by rewrite Hk.
Qed.
Lemma group_of_ok kx vx d1 d2 k : ext_ok kx -> ext_ok vx -> key d1 = Some k -> key d2 = Some k -> group_of kx vx d1 = group_of kx vx d2.
Proof.
  intros Hk Hv E1 E2. unfold group_of. specialize (Hk d1 d2 k E1 E2). specialize (Hv d1 d2 k E1 E2).
  destruct (kx d1) as [[g1|]|], (kx d2) as [[g2|]|]; try done.
  destruct (vx d1) as [[v1|]|], (vx d2) as [[v2|]|]; done.
Qed.
(** Entries of equal Z-sets correspond. *)
Lemma zents_match a b : zwf a -> zwf b -> zeq a b -> exists l, Permutation (zents b) l /\
  Forall2 (fun e1 e2 : doc * Z => (exists k, key e1.1 = Some k /\ key e2.1 = Some k) /\ e1.2 = e2.2) (zents a) l.
Proof.
  intros Wa Wb E.
  assert (ED : dom (docs a) = dom (docs b)).
  { rewrite (wf_dom _ Wa), (wf_dom _ Wb). apply set_eq. intros k. rewrite !elem_of_dom. specialize (E k). unfold zcount in E.
    pose proof (wf_nz _ Wa k). pose proof (wf_nz _ Wb k).
    destruct (counts a !! k) as [x|], (counts b !! k) as [y|]; simpl in E; split; intros [? ?]; try done; exfalso; naive_solver lia. }
  set (f := fun kd : ident * doc => (default kd.2 (docs b !! kd.1), zcount b kd.1)).
  exists (map f (map_to_list (docs a))). split.
  - unfold zents.
    assert (PM : Permutation (map_to_list (docs b)) (map (fun kd : ident * doc => (kd.1, default kd.2 (docs b !! kd.1))) (map_to_list (docs a)))).
    { apply NoDup_Permutation.
      - apply NoDup_map_to_list.
      - apply (NoDup_fmap_1 fst). change (NoDup (map fst (map (fun kd : ident * doc => (kd.1, default kd.2 (docs b !! kd.1))) (map_to_list (docs a))))).
        rewrite map_map. apply NoDup_fst_map_to_list.
      - intros [k d]. rewrite elem_of_map_to_list, elem_of_list_In, in_map_iff. split.
        + intros Hd. assert (is_Some (docs a !! k)) as [d' Hd'] by (apply elem_of_dom; rewrite ED; by apply elem_of_dom_2 in Hd).
          exists (k, d'). simpl. rewrite Hd. split; [done|]. by rewrite <- elem_of_list_In, elem_of_map_to_list.
        + intros ([k' d'] & [= -> <-] & Hin). simpl. rewrite <- elem_of_list_In, elem_of_map_to_list in Hin.
          assert (is_Some (docs b !! k)) as [d Hd] by (apply elem_of_dom; rewrite <- ED; by apply elem_of_dom_2 in Hin). by rewrite Hd. }
    rewrite PM, map_map. done.
  - unfold zents. subst f.
    assert (G : forall L, (forall kd, In kd L -> docs a !! kd.1 = Some kd.2) ->
      Forall2 (fun e1 e2 : doc * Z => (exists k, key e1.1 = Some k /\ key e2.1 = Some k) /\ e1.2 = e2.2)
        (map (fun kd : ident * doc => (kd.2, zcount a kd.1)) L) (map (fun kd => (default kd.2 (docs b !! kd.1), zcount b kd.1)) L)).
    { induction L as [|[k d] L IH]; intros H; constructor; [|apply IH; intros; apply H; by right].
      simpl. specialize (H (k, d) (or_introl eq_refl)). simpl in H.
      assert (is_Some (docs b !! k)) as [d' Hd] by (apply elem_of_dom; rewrite <- ED; by apply elem_of_dom_2 in H).
      rewrite Hd. simpl. split; [|apply E]. exists k. split; [by apply (wf_key _ Wa)|by apply (wf_key _ Wb)]. }
    apply G. intros [k d] Hin. by rewrite <- elem_of_list_In, elem_of_map_to_list in Hin.
Qed.
Lemma group_values_match kx vx j l1 l2 : ext_ok kx -> ext_ok vx ->
  Forall2 (fun e1 e2 : doc * Z => (exists k, key e1.1 = Some k /\ key e2.1 = Some k) /\ e1.2 = e2.2) l1 l2 ->
  map vjson (group_values kx vx j l1) = map vjson (group_values kx vx j l2).
Proof.
  intros Hk Hv. induction 1 as [|[d1 m1] [d2 m2] l1 l2 [(k & E1 & E2) Em] F IH]; [done|]. simpl in *. subst m2.
  unfold group_values in *. simpl. rewrite !map_app, IH. f_equal.
  rewrite (group_of_ok kx vx d1 d2 k) by done. case_decide; [|done].
  specialize (Hv d1 d2 k E1 E2). destruct (vx d1) as [[v1|]|], (vx d2) as [[v2|]|]; try done.
  clear -Hv. induction (Z.to_nat m1) as [|n IHn]; simpl; congruence.
Qed.
Lemma agg_values_canon vs vs' : sort_canon sortv -> Permutation (map vjson vs) (map vjson vs') -> map vjson (agg_values vs) = map vjson (agg_values vs').
Proof.
  intros [_ HS] P. pose proof (Permutation_length P) as L. rewrite !map_length in L.
  destruct vs as [|v1 [|v2 vs]], vs' as [|w1 [|w2 vs']]; try done.
  - simpl in *. by apply Permutation_length_1 in P as ->.
  - by apply HS.
Qed.

Lemma c10_det o1 o2 kx vx agg a b : order_ok o1 -> order_ok o2 -> zwf a -> zwf b -> zeq a b -> nonneg a ->
  ext_ok kx -> ext_ok vx -> sort_canon sortv -> agg_uniform kx agg a ->
  res_eq (gather o1 sortv kx vx agg a) (gather o2 sortv kx vx agg b).
Proof.
  intros Ho1 Ho2 Wa Wb E Na Hk Hv HS HA.
  assert (Nb : nonneg b) by (intros k; rewrite <- (E k); apply Na).
  destruct (entries_ok (osub o1 0) a) as (ea & Ea & _); auto using osub_ok.
  destruct (entries_ok (osub o2 0) b) as (eb & Eb & _); auto using osub_ok.
  pose proof (zents_entries (osub o1 0) a ea (osub_ok o1 0 Ho1) Wa Ea) as PA.
  pose proof (zents_entries (osub o2 0) b eb (osub_ok o2 0 Ho2) Wb Eb) as PB.
  pose proof (entries_nonneg (osub o1 0) a ea (osub_ok o1 0 Ho1) Wa Na Ea) as NA.
  pose proof (entries_nonneg (osub o2 0) b eb (osub_ok o2 0 Ho2) Wb Nb Eb) as NB.
  destruct (zents_match a b Wa Wb E) as (l & PL & F).
  assert (PA' : Permutation ea (zents a)) by done.
  assert (PB' : Permutation eb l) by (by rewrite PB).
  (* groups of both sides succeed together *)
  assert (SX : is_Some (gather_groups kx vx ∅ ea) <-> is_Some (gather_groups kx vx ∅ eb)).
  { rewrite !gather_groups_success. rewrite PA', PB'. clear -F Hk Hv. induction F as [|e1 e2 l1 l2 [(k & E1 & E2) _] F IH]; [done|].
    rewrite !Forall_cons, IH. split; intros [H1 H2]; (split; [|done]); [by apply (extracts_ok kx vx e1.1 e2.1 k)|by apply (extracts_ok kx vx e2.1 e1.1 k)]. }
  destruct (gather_groups kx vx ∅ ea) as [ga|] eqn:Ga.
  2:{ destruct (gather_groups kx vx ∅ eb) as [gb|] eqn:Gb; [destruct SX as [_ SX]; destruct SX; [eauto|done]|].
      unfold gather. rewrite Ea, Eb. simpl. by rewrite Ga, Gb. }
  destruct (gather_groups kx vx ∅ eb) as [gb|] eqn:Gb; [|destruct SX as [SX _]; destruct SX; [eauto|done]]. clear SX.
  rewrite (gather_unfold o1 kx vx agg a ea ga Ea Ga), (gather_unfold o2 kx vx agg b eb gb Eb Gb).
  pose proof (gather_groups_spec kx vx ea NA ∅ ga Ga) as SA. pose proof (gather_groups_spec kx vx eb NB ∅ gb Gb) as SB.
  (* outputs of corresponding groups *)
  set (out := fun g : group_data => key <$> agg_out agg g).
  assert (EQ : out <$> ga = out <$> gb).
  { apply map_eq. intros j. rewrite !lookup_fmap. specialize (SA j). specialize (SB j). rewrite lookup_empty in SA, SB.
    assert (HV : Permutation (map vjson (group_values kx vx j ea)) (map vjson (group_values kx vx j eb))).
    { rewrite (group_values_perm kx vx j _ _ PA'), (group_values_perm kx vx j _ _ PB').
      rewrite (group_values_match kx vx j (zents a) l); done. }
    assert (ME : (exists e, In e ea /\ group_of kx vx e.1 = Some j) <-> (exists e, In e eb /\ group_of kx vx e.1 = Some j)).
    { split.
      - intros (e & He & Hg). apply (Permutation_in _ PA') in He. apply elem_of_list_In, elem_of_list_lookup in He as [i Hi].
        destruct (Forall2_lookup_l _ _ _ _ _ F Hi) as (e2 & Hi2 & (k & E1 & E2) & _). exists e2. split.
        + apply (Permutation_in _ (Permutation_sym PB')). apply elem_of_list_In. by eapply elem_of_list_lookup_2.
        + by rewrite <- (group_of_ok kx vx e.1 e2.1 k).
      - intros (e & He & Hg). apply (Permutation_in _ PB') in He. apply elem_of_list_In, elem_of_list_lookup in He as [i Hi].
        destruct (Forall2_lookup_r _ _ _ _ _ F Hi) as (e2 & Hi2 & (k & E1 & E2) & _). exists e2. split.
        + apply (Permutation_in _ (Permutation_sym PA')). apply elem_of_list_In. by eapply elem_of_list_lookup_2.
        + by rewrite (group_of_ok kx vx e2.1 e.1 k). }
    destruct SA as [[-> FA]|(d1 & m1 & g1 & I1 & G1 & K1 & ->)], SB as [[-> FB]|(d2 & m2 & g2 & I2 & G2 & K2 & ->)]; try done.
    - exfalso. destruct ME as [_ ME]. destruct ME as (e & He & Hg); [by exists (d2, m2)|]. rewrite List.Forall_forall in FA. by apply FA in He.
    - exfalso. destruct ME as [ME _]. destruct ME as (e & He & Hg); [by exists (d1, m1)|]. rewrite List.Forall_forall in FB. by apply FB in He.
    - simpl. f_equal. unfold out, agg_out. cbn [gd_doc gd_key gd_values].
      apply (Permutation_in _ PA) in I1. apply zents_in in I1 as (k1 & D1 & _); [|done].
      apply (Permutation_in _ PB) in I2. apply zents_in in I2 as (k2 & D2 & _); [|done].
      assert (Z1 : zcount a k1 <> 0).
      { unfold zcount. destruct (counts a !! k1) eqn:Ec; simpl; [by apply (wf_nz _ Wa k1)|].
        apply elem_of_dom_2 in D1. rewrite (wf_dom _ Wa) in D1. apply elem_of_dom in D1 as [? ?]. congruence. }
      assert (Z2 : zcount a k2 <> 0).
      { rewrite (E k2). unfold zcount. destruct (counts b !! k2) eqn:Ec; simpl; [by apply (wf_nz _ Wb k2)|].
        apply elem_of_dom_2 in D2. rewrite (wf_dom _ Wb) in D2. apply elem_of_dom in D2 as [? ?]. congruence. }
      assert (V12 : vjson g1 = vjson g2).
      { unfold group_of in G1, G2. rewrite K1 in G1. rewrite K2 in G2.
        destruct (vx d1) as [[?|]|]; try done. destruct (vx d2) as [[?|]|]; try done. congruence. }
      pose proof (HA d1 d2 k1 k2 g1 g2 _ _ (wf_key _ Wa _ _ D1) Z1 (wf_key _ Wb _ _ D2) Z2 K1 K2 V12 (agg_values_canon _ _ HS HV)) as HO.
      destruct (agg d1 g1 _), (agg d2 g2 _); simpl; try done. by rewrite HO. }
  assert (PO : Permutation (map (fun x => out x.2) (o1 group_data [1%nat] ga)) (map (fun x => out x.2) (o2 group_data [1%nat] gb))).
  { assert (GG : forall o g, order_ok o -> Permutation (map (fun x : ident * group_data => out x.2) (o group_data [1%nat] g)) (map snd (map_to_list (out <$> g)))).
    { intros o g Ho. rewrite map_to_list_fmap. unfold fmap at 1. rewrite list_fmap_alt || idtac. rewrite map_map. rewrite (Ho group_data [1%nat] g). apply Permutation_refl'. apply map_ext. by intros []. }
    rewrite (GG o1 ga Ho1), (GG o2 gb Ho2), EQ. done. }
  destruct (gather_aggregate_spec agg (o1 group_data [1%nat] ga) zempty wf_empty) as [A1 A2].
  destruct (gather_aggregate_spec agg (o2 group_data [1%nat] gb) zempty wf_empty) as [B1 B2].
  assert (OKx : forall L : list (ident * group_data), Forall (fun x => exists d, agg_out agg x.2 = Some d /\ is_Some (key d)) L
     <-> Forall (fun r => exists k, r = Some (Some k)) (map (fun x => out x.2) L)).
  { intros L. rewrite Forall_map. apply Forall_iff. intros [i g]. unfold out. simpl. split.
    - intros (d & -> & [k Hd]). exists k. simpl. by rewrite Hd.
    - intros (k & Hr). destruct (agg_out agg g) as [d|]; [|done]. simpl in Hr. injection Hr as Hr. exists d. split; [done|]. eauto. }
  rewrite OKx in A1, B1. rewrite PO in A1. rewrite <- B1 in A1.
  destruct (gather_aggregate sortv agg zempty (o1 group_data [1%nat] ga)) as [ya|], (gather_aggregate sortv agg zempty (o2 group_data [1%nat] gb)) as [yb|]; simpl.
  - intros k. destruct (A2 ya eq_refl) as (_ & oa & Ma & ->). destruct (B2 yb eq_refl) as (_ & ob & Mb & ->). f_equal.
    assert (OC : forall L os, mapM (fun x : ident * group_data => agg_out agg x.2) L = Some os ->
       occ k os = lsum (fun r => if decide (r = Some (Some k)) then 1 else 0) (map (fun x => out x.2) L)).
    { clear. induction L as [|[i g] L IH]; intros os Em; [by injection Em as <-|]. cbn [mapM] in Em. cbn [snd] in Em.
      destruct (agg_out agg g) as [d|] eqn:Ea; [|done]. cbn in Em. destruct (mapM _ L) as [os'|] eqn:El; [|done]. cbn in Em. injection Em as <-.
      specialize (IH _ eq_refl). unfold occ in *. simpl. rewrite IH. f_equal. unfold out. rewrite Ea. simpl.
      destruct (decide (key d = Some k)), (decide (Some (key d) = Some (Some k))); congruence. }
    rewrite (OC _ _ Ma), (OC _ _ Mb). apply lsum_perm. done.
  - destruct A1 as [A1 _]. destruct A1; [eauto|done].
  - destruct A1 as [_ A1]. destruct A1; [eauto|done].
  - done.
Qed.
End gather.
