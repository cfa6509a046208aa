(** Z-sets without negative multiplicities as lists of documents, for documents
    on which identity is equality. *)
From Verif Require Import ZSetModel OpsModel ExecModel ZSetSpec OpsSpec GatherSpec ExecSpec ZSetProofs ZSetProofs2 OpsProofs JoinProofs ChainProofs GatherProofs GatherDet StageSpec.

Section lists.
Context {DD : Docs}.
Hypothesis inj : forall (a b : doc) k, key a = Some k -> key b = Some k -> a = b.

Definition keyed (l : list doc) : Prop := Forall (fun d => is_Some (key d)) l.
Definition rep (z : zset) (l : list doc) : Prop := zwf z /\ keyed l /\ forall k, zcount z k = occ k l.

Lemma occ_cons k d l : occ k (d :: l) = (if decide (key d = Some k) then 1 else 0) + occ k l.
Proof. done. Qed.
Lemma keyed_in l d : keyed l -> In d l -> is_Some (key d).
Proof. intros H Hd. unfold keyed in H; rewrite List.Forall_forall in H. by apply H. Qed.
Lemma occ_perm_list k l l' : Permutation l l' -> occ k l = occ k l'.
Proof. intros H. apply occ_perm. by apply Permutation_map. Qed.
Lemma occ_in k d l : In d l -> key d = Some k -> 0 < occ k l.
Proof.
  intros Hd Hk. induction l as [|x l IH]; [done|]. rewrite occ_cons. pose proof (occ_nonneg k l).
  destruct Hd as [->|Hd]; [rewrite decide_True by done; lia|]. specialize (IH Hd). case_decide; lia.
Qed.
Lemma occ_perm_inv l : forall l', keyed l -> keyed l' -> (forall k, occ k l = occ k l') -> Permutation l l'.
Proof.
  induction l as [|d l IH]; intros l' Hl Hl' E.
  - destruct l' as [|d' l']; [done|]. apply Forall_cons in Hl' as [[k Hk] _]. specialize (E k).
    rewrite occ_cons, decide_True in E by done. pose proof (occ_nonneg k l'). cbn in E. lia.
  - apply Forall_cons in Hl as [[k Hk] Hl]. pose proof (E k) as Ek. rewrite occ_cons, decide_True in Ek by done. pose proof (occ_nonneg k l).
    destruct (occ_nz_in k l') as (d' & Hin & Hd'); [lia|]. assert (d' = d) as -> by (eapply inj; eauto).
    apply elem_of_list_In, elem_of_Permutation in Hin as [l'' Hp]. rewrite Hp. constructor. apply IH; [done| |].
    + assert (keyed (d :: l'')) as Hx by (unfold keyed in *; by rewrite <-Hp). by apply Forall_cons in Hx as [_ ?].
    + intros k'. specialize (E k'). rewrite (occ_perm_list k' _ _ Hp) in E. rewrite !occ_cons in E. lia.
Qed.

Definition copies (z : zset) : list doc := flat_map (fun e => repeat e.1 (Z.to_nat e.2)) (zents z).
Lemma lsum_repeat {A} (f : A -> Z) x n : lsum f (repeat x n) = Z.of_nat n * f x.
Proof. induction n as [|n IH]; [done|]. cbn [repeat lsum]. unfold lsum in *. simpl. rewrite IH. lia. Qed.
Lemma zents_pos z d c : zwf z -> nonneg z -> In (d, c) (zents z) -> 0 <= c.
Proof. intros W N H. apply zents_in in H as (k & Hd & Hc); [|done]. specialize (N k). unfold zcount in N. rewrite Hc in N. done. Qed.
Lemma copies_sum g z : zwf z -> nonneg z -> lsum g (copies z) = zsum g z.
Proof.
  intros W N. unfold copies. rewrite zsum_wsum, lsum_flat_map. unfold wsum. apply lsum_ext. intros [d c] H. simpl. rewrite lsum_repeat.
  apply zents_pos in H; [|done|done]. rewrite Z2Nat.id; done.
Qed.
Lemma copies_keyed z : zwf z -> keyed (copies z).
Proof.
  intros W. apply List.Forall_forall. intros d Hd. unfold copies in Hd. apply in_flat_map in Hd as ([d' c] & He & Hr). simpl in Hr.
  apply repeat_spec in Hr as ->. apply zents_in in He as (k & Hk & _); [|done]. exists k. by eapply wf_key.
Qed.
Lemma copies_rep z : zwf z -> nonneg z -> rep z (copies z).
Proof.
  intros W N. split_and!; [done|by apply copies_keyed|]. intros k. unfold occ. rewrite copies_sum by done. rewrite zsum_wsum.
  rewrite <-(zents_esum z k W). unfold esum, wsum. apply lsum_ext. intros [d c] _. simpl. case_decide; lia.
Qed.
Lemma rep_nonneg z l : rep z l -> nonneg z.
Proof. intros (_ & _ & H) k. rewrite H. apply occ_nonneg. Qed.
Lemma rep_copies z l : rep z l -> Permutation l (copies z).
Proof.
  intros H. pose proof (rep_nonneg _ _ H) as N. destruct H as (W & K & C). destruct (copies_rep z W N) as (_ & K' & C').
  apply occ_perm_inv; [done|done|]. intros k. by rewrite <-C, <-C'.
Qed.
Lemma rep_sum g z l : rep z l -> zsum g z = lsum g l.
Proof. intros H. rewrite (lsum_perm g _ _ (rep_copies _ _ H)). symmetry. apply copies_sum; [apply H|by eapply rep_nonneg]. Qed.
Lemma rep_in z l d : rep z l -> In d l <-> exists k, docs z !! k = Some d.
Proof.
  intros (W & K & C). split.
  - intros Hd. destruct (keyed_in _ _ K Hd) as [k Hk]. exists k. pose proof (occ_in k d l Hd Hk) as Ho. rewrite <-C in Ho.
    unfold zcount in Ho. destruct (counts z !! k) as [c|] eqn:E; [|done].
    assert (is_Some (docs z !! k)) as [d' Hd'] by (rewrite <-elem_of_dom; rewrite (wf_dom _ W); apply elem_of_dom; by exists c).
    assert (key d' = Some k) by (by eapply wf_key). rewrite Hd'. f_equal. by eapply inj.
  - intros [k Hk]. assert (key d = Some k) by (by eapply wf_key). assert (zcount z k <> 0) as Hz.
    { unfold zcount. assert (is_Some (counts z !! k)) as [c Hc] by (rewrite <-elem_of_dom; rewrite <-(wf_dom _ W); apply elem_of_dom; by exists d).
      rewrite Hc. simpl. by eapply wf_nz. }
    rewrite C in Hz. destruct (occ_nz_in _ _ Hz) as (d' & Hin & Hd'). assert (d' = d) as -> by (by eapply inj). done.
Qed.
Lemma rep_perm z l l' : rep z l -> Permutation l l' -> rep z l'.
Proof.
  intros (W & K & C) H. split_and!; [done|unfold keyed in *; by rewrite <-H|]. intros k. by rewrite C, (occ_perm_list k _ _ H).
Qed.
Lemma rep_zeq z z' l : rep z l -> zwf z' -> zeq z z' -> rep z' l.
Proof. intros (W & K & C) W' E. split_and!; [done|done|]. intros k. by rewrite <-E. Qed.

(** Linear operators. *)
Lemma rep_linear f ev o z l y : linear_ext f ev -> order_ok o -> rep z l -> f o z = Some y ->
  exists ls, Forall2 (fun d l' => ev d = Some l') l ls /\ rep y (concat ls).
Proof.
  intros L Ho R E. pose proof R as (W & K & C). destruct (L o z Ho W) as [HG HC]. destruct (HC y E) as [Wy Cy].
  assert (forall d, In d l -> ev_good ev d) as Hg.
  { intros d Hd. apply (rep_in z l d R) in Hd as [k Hk]. rewrite E in HG. by eapply HG; [|exact Hk]. }
  assert (exists ls, Forall2 (fun d l' => ev d = Some l') l ls /\ keyed (concat ls) /\ forall k, occ k (concat ls) = lsum (fun d => occ k (ev_out ev d)) l) as (ls & H1 & H2 & H3).
  { clear -Hg. induction l as [|d l IH]; [exists []; split_and!; [constructor|by apply Forall_nil|done]|].
    destruct IH as (ls & H1 & H2 & H3); [intros; apply Hg; by right|]. destruct (Hg d) as (l' & E & Hk); [by left|].
    exists (l' :: ls). split_and!; [by constructor| |].
    - cbn [concat]. apply Forall_app. split; [|done]. by apply List.Forall_forall.
    - intros k. cbn [concat]. rewrite occ_app, H3. unfold ev_out. simpl. by rewrite E. }
  exists ls. split; [done|]. split_and!; [done|done|]. intros k. rewrite Cy, H3. by apply rep_sum.
Qed.

(** Gather. *)
Definition lgroup (kx vx : extractor) (j : ident) (l : list doc) : list val :=
  flat_map (fun d => if decide (group_of kx vx d = Some j) then match vx d with Some (Some v) => [v] | _ => [] end else []) l.
Lemma flat_map_perm {A B} (f : A -> list B) l l' : Permutation l l' -> Permutation (flat_map f l) (flat_map f l').
Proof. apply Permutation_flat_map. Qed.
Lemma group_values_copies kx vx j z : group_values kx vx j (zents z) = lgroup kx vx j (copies z).
Proof.
  unfold group_values, lgroup, copies. induction (zents z) as [|[d c] es IH]; [done|]. cbn [flat_map]. rewrite IH, flat_map_app. f_equal. simpl.
  induction (Z.to_nat c) as [|n IHn]; simpl; [case_decide; [by destruct (vx d) as [[]|]|done]|]. rewrite <-IHn. case_decide; [|done]. by destruct (vx d) as [[]|].
Qed.
Lemma rep_gather sortv o kx vx agg z l y : order_ok o -> rep z l -> gather o sortv kx vx agg z = Some y ->
  exists outs : list (ident * doc), rep y (map snd outs) /\ NoDup (map fst outs)
    /\ (forall j, In j (map fst outs) <-> exists d, In d l /\ group_of kx vx d = Some j)
    /\ forall j r, In (j, r) outs -> exists d gk vs, In d l /\ group_of kx vx d = Some j /\ kx d = Some (Some gk)
         /\ Permutation vs (lgroup kx vx j l) /\ agg d gk (agg_values sortv vs) = Some r.
Proof.
  intros Ho R E. pose proof R as (W & K & C). destruct (c10_groups sortv o kx vx agg z y Ho W (rep_nonneg _ _ R) E) as (Wy & outs & H1 & H2 & H3 & H4).
  assert (HP : forall j, Permutation (group_values kx vx j (zents z)) (lgroup kx vx j l)).
  { intros j. rewrite group_values_copies. apply flat_map_perm. symmetry. by apply rep_copies. }
  exists outs. split; [|split; [done|split]].
  - split_and!; [done| |done]. apply List.Forall_forall. intros r Hr. apply in_map_iff in Hr as ([j r'] & <- & Hr). by destruct (H3 j r' Hr) as (k & d & gk & vs & _ & _ & _ & _ & _ & Hk).
  - intros j. rewrite H2. split.
    + intros (k & d & Hd & Hg). exists d. split; [|done]. apply (rep_in z l d R). by exists k.
    + intros (d & Hd & Hg). apply (rep_in z l d R) in Hd as [k Hk]. by exists k, d.
  - intros j r Hr. destruct (H3 j r Hr) as (k & d & gk & vs & Hd & Hg & Hk & Hp & Ha & _). exists d, gk, vs. split_and!; try done.
    + apply (rep_in z l d R). by exists k.
    + by rewrite Hp.
Qed.

(** Join. *)
Lemma rep_jsum zs ls : Forall2 rep zs ls -> forall g, jsum g zs = lsum g (picks ls).
Proof.
  induction 1 as [|z l zs ls R F IH]; intros g; simpl; [unfold lsum; simpl; lia|].
  rewrite <-zsum_wsum, (rep_sum _ z l R), lsum_flat_map. apply lsum_ext. intros d _. by rewrite IH, lsum_map.
Qed.
Lemma picks_tuples zs ls : Forall2 rep zs ls -> forall t, In t (picks ls) -> exists w, In (t, w) (tuples (map zents zs)).
Proof.
  induction 1 as [|z l zs ls R F IH]; intros t; simpl; [intros [<-|[]]; exists 1; by left|].
  rewrite in_flat_map. intros (d & Hd & Ht). apply in_map_iff in Ht as (t' & <- & Ht'). destruct (IH t' Ht') as [w Hw].
  apply (rep_in z l d R) in Hd as [k Hk]. pose proof R as (W & _).
  assert (is_Some (counts z !! k)) as [c Hc] by (apply elem_of_dom; rewrite <-(wf_dom _ W); by apply elem_of_dom_2 in Hk).
  exists (c * w). apply in_flat_map. exists (d, c). split; [apply zents_in; eauto|]. apply in_map_iff. by exists (t', w).
Qed.
Lemma rep_join jev o n zs ls J : order_ok o -> Forall2 rep zs ls -> join_snapshot o jev n zs = Some J ->
  exists outs, Forall2 (fun t l' => jev t = Some l') (picks ls) outs /\ rep J (concat outs).
Proof.
  intros Ho F E. unfold join_snapshot in E. case_decide; [|done].
  assert (W : Forall zwf zs) by (clear -F; induction F as [|? ? ? ? (? & _)]; by constructor).
  pose proof (proj1 (cjoin_top_success jev zs _ W Ho) (ex_intro _ J E)) as HG.
  destruct (cjoin_top _ _ _ _ W Ho E) as [WJ CJ].
  assert (G : forall t, In t (picks ls) -> jev_good jev t) by (intros t Ht; destruct (picks_tuples _ _ F t Ht) as [w Hw]; by eapply HG).
  assert (exists outs, Forall2 (fun t l' => jev t = Some l') (picks ls) outs /\ keyed (concat outs)
    /\ forall k, occ k (concat outs) = lsum (fun t => occ k (default [] (jev t))) (picks ls)) as (outs & H1 & H2 & H3).
  { clear -G. induction (picks ls) as [|t ts IH]; [exists []; split_and!; [constructor|by apply Forall_nil|done]|].
    destruct IH as (ls' & H1 & H2 & H3); [intros; apply G; by right|]. destruct (G t) as (l' & E & Hk); [by left|].
    exists (l' :: ls'). split_and!; [by constructor| |].
    - cbn [concat]. apply Forall_app. split; [|done]. by apply List.Forall_forall.
    - intros k. cbn [concat]. rewrite occ_app, H3. simpl. by rewrite E. }
  exists outs. split; [done|]. split_and!; [done|done|]. intros k. rewrite CJ, join_mult_jsum, H3. by apply rep_jsum.
Qed.
End lists.
