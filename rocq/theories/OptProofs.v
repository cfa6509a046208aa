(** The optimizer: termination (C12) and correctness of the optimized,
    incremental graph (C13). *)
From Verif Require Import ZSetModel OpsModel ExecModel ZSetSpec ZSetProofs ZSetProofs2 OpsSpec OpsProofs ExecSpec StreamProofs JoinProofs ChainProofs ChainProofs2.

Ltac blind := split; intros [] *; split; reflexivity.

Section opt.
Context {DD : Docs}.


(** ** Structure of rewritten chains *)
(** [f] never holds of a fused operator. *)
Definition fuse_blind (f : op -> op -> bool) : Prop :=
  (forall p pe se, f (OProjSel pe se) p = false /\ f p (OProjSel pe se) = false)
  /\ (forall p se pes, f (OSelProjs se pes) p = false /\ f p (OSelProjs se pes) = false).

Lemma exists_pair_cons f c1 c2 l : exists_pair f (c1 :: c2 :: l) = f (cn_op c1) (cn_op c2) || exists_pair f (c2 :: l).
Proof. done. Qed.
Lemma exists_pair_tail f c l : exists_pair f (c :: l) = false -> exists_pair f l = false.
Proof. destruct l as [|c2 l]; [done|]. rewrite exists_pair_cons. intros H. by apply orb_false_elim in H as [_ ?]. Qed.

(** Head of the chain after a rewrite: the old head or a fused operator. *)
Definition head_ok (cs cs' : list cnode) : Prop :=
  match cs' with
  | [] => cs = []
  | c' :: _ => match cs with c :: _ => c' = c | [] => False end
               \/ match cn_op c' with OProjSel _ _ | OSelProjs _ _ => True | _ => False end
  end.
Lemma pair_cons_head f c cs cs' : fuse_blind f -> head_ok cs cs' ->
  exists_pair f (c :: cs) = false -> exists_pair f cs' = false -> exists_pair f (c :: cs') = false.
Proof.
  intros [B1 B2] H E E'. destruct cs' as [|c' l']; [done|]. rewrite exists_pair_cons, E'.
  rewrite orb_false_r. destruct H as [H|H].
  - destruct cs as [|c0 l]; [done|]. subst. rewrite exists_pair_cons in E. by apply orb_false_elim in E as [? _].
  - destruct (cn_op c'); try done; [apply B1|apply B2].
Qed.
Lemma pair_cons_fused f c cs' : fuse_blind f -> match cn_op c with OProjSel _ _ | OSelProjs _ _ => True | _ => False end ->
  exists_pair f cs' = false -> exists_pair f (c :: cs') = false.
Proof.
  intros [B1 B2] H E. destruct cs' as [|c' l']; [done|]. rewrite exists_pair_cons, E.
  destruct (cn_op c); try done; [by rewrite (proj1 (B1 _ _ _))|by rewrite (proj1 (B2 _ _ _))].
Qed.

Lemma fuse_proj_sel_head cs : head_ok cs (fuse_proj_sel cs).
Proof.
  destruct cs as [|c1 [|c2 l]]; [done|by left|]. rewrite fuse_proj_sel_eq.
  destruct (cn_op c1); try (by left). destruct (cn_op c2); try (by left). by right.
Qed.
Lemma fuse_proj_sel_pairs f cs : fuse_blind f -> exists_pair f cs = false -> exists_pair f (fuse_proj_sel cs) = false.
Proof.
  intros B. remember (length cs) as n eqn:En. revert cs En. induction (lt_wf n) as [n _ IH]. intros cs -> E.
  destruct cs as [|c1 [|c2 l]]; [done|done|]. rewrite fuse_proj_sel_eq.
  assert (E2 : exists_pair f (c2 :: l) = false) by by eapply exists_pair_tail.
  assert (E3 : exists_pair f l = false) by by eapply exists_pair_tail.
  assert (Hdef : exists_pair f (c1 :: fuse_proj_sel (c2 :: l)) = false).
  { eapply pair_cons_head; [done|apply fuse_proj_sel_head|done|]. eapply (IH (length (c2 :: l))); [simpl; lia|done|done]. }
  destruct (cn_op c1); try exact Hdef. destruct (cn_op c2); try exact Hdef.
  apply pair_cons_fused; [done|done|]. apply (IH (length l)); auto. simpl; lia.
Qed.
Lemma fuse_proj_sel_none cs : has_proj_sel (fuse_proj_sel cs) = false.
Proof.
  remember (length cs) as n eqn:En. revert cs En. induction (lt_wf n) as [n _ IH]. intros cs ->.
  destruct cs as [|c1 [|c2 l]]; [done|done|]. rewrite fuse_proj_sel_eq.
  assert (B : fuse_blind (fun a b => is_proj a && is_sel b)) by (blind).
  assert (IHl : has_proj_sel (fuse_proj_sel l) = false) by (eapply (IH (length l)); [simpl; lia|done]).
  assert (IH2 : has_proj_sel (fuse_proj_sel (c2 :: l)) = false) by (eapply (IH (length (c2 :: l))); [simpl; lia|done]).
  assert (Hdef : is_proj (cn_op c1) && is_sel (cn_op c2) = false -> has_proj_sel (c1 :: fuse_proj_sel (c2 :: l)) = false).
  { intros Hp. unfold has_proj_sel in *. pose proof (fuse_proj_sel_head (c2 :: l)) as HH.
    destruct (fuse_proj_sel (c2 :: l)) as [|c' l']; [done|]. rewrite exists_pair_cons, IH2, orb_false_r.
    destruct HH as [->|HH]; [done|]. destruct (cn_op c'); try done; simpl; apply andb_false_r. }
  destruct (cn_op c1) eqn:E1; try (apply Hdef; done).
  destruct (cn_op c2) eqn:E2; try (apply Hdef; done).
  by apply pair_cons_fused.
Qed.
Lemma fuse_proj_sel_id cs : has_proj_sel cs = false -> fuse_proj_sel cs = cs.
Proof.
  induction cs as [|c1 l IH]; [done|]. intros H. destruct l as [|c2 l]; [done|]. rewrite fuse_proj_sel_eq.
  unfold has_proj_sel in H. rewrite exists_pair_cons in H. apply orb_false_elim in H as [H1 H2].
  rewrite IH by done. destruct (cn_op c1); try done. destruct (cn_op c2); done.
Qed.

Lemma fuse_sel_projs_head n cs : head_ok cs (fuse_sel_projs n cs).
Proof.
  destruct n as [|n]; [destruct cs; [done|by left]|]. destruct cs as [|c l]; [done|]. simpl.
  destruct (cn_op c); try (by left); destruct (span_projs l) as [[|e0 evs] r]; (by left) || (by right).
Qed.
Lemma span_projs_pairs f cs : forall evs r, span_projs cs = (evs, r) -> exists_pair f cs = false -> exists_pair f r = false.
Proof.
  induction cs as [|c cs IH]; intros evs r E H; [by injection E as <- <-|]. cbn [span_projs] in E.
  assert (H' : exists_pair f cs = false) by by eapply exists_pair_tail.
  destruct (cn_op c) eqn:Ec; try (injection E as <- <-; exact H).
  destruct (span_projs cs) as [evs' r']. injection E as <- <-. eauto.
Qed.
Lemma fuse_sel_projs_pairs f n : fuse_blind f -> forall cs, exists_pair f cs = false -> exists_pair f (fuse_sel_projs n cs) = false.
Proof.
  intros B. induction n as [|n IH]; intros cs E; [done|]. destruct cs as [|c l]; [done|]. simpl.
  assert (El : exists_pair f l = false) by by eapply exists_pair_tail.
  assert (Hdef : exists_pair f (c :: fuse_sel_projs n l) = false).
  { eapply pair_cons_head; [done|apply fuse_sel_projs_head|done|auto]. }
  destruct (cn_op c); try exact Hdef; destruct (span_projs l) as [[|e0 evs] r] eqn:Es; try exact Hdef;
    (apply pair_cons_fused; [done|done|]; apply IH; eapply span_projs_pairs; eauto).
Qed.
Lemma fuse_sel_projs_none n : forall cs, (length cs <= n)%nat ->
  exists_pair (fun a b => (is_sel a || is_proj a) && is_proj b) (fuse_sel_projs n cs) = false.
Proof.
  set (f := fun a b : op => (is_sel a || is_proj a) && is_proj b).
  assert (B : fuse_blind f) by (blind).
  induction n as [|n IH]; intros cs Hn; [by destruct cs; [|simpl in Hn; lia]|].
  destruct cs as [|c l]; [done|]. simpl in Hn |- *.
  assert (IHl : exists_pair f (fuse_sel_projs n l) = false) by (apply IH; lia).
  assert (Hdef : is_sel (cn_op c) || is_proj (cn_op c) = false -> exists_pair f (c :: fuse_sel_projs n l) = false).
  { intros H. destruct (fuse_sel_projs n l) as [|c' l']; [done|]. rewrite exists_pair_cons, IHl. unfold f. by rewrite H. }
  assert (Hdef2 : forall r, span_projs l = ([], r) -> exists_pair f (c :: fuse_sel_projs n l) = false).
  { intros r Es. destruct (span_projs_spec l [] r Es) as (_ & _ & Hr).
    assert (r = l) as ->. { destruct l as [|c0 l0]; simpl in Es; [by injection Es|].
      destruct (cn_op c0); try (by injection Es). by destruct (span_projs l0). }
    pose proof (fuse_sel_projs_head n l) as HH.
    destruct (fuse_sel_projs n l) as [|c' l']; [done|]. rewrite exists_pair_cons, IHl, orb_false_r. unfold f.
    destruct HH as [HH|HH].
    - destruct l; [done|]. subst. rewrite Hr. apply andb_false_r.
    - destruct (cn_op c'); try done; apply andb_false_r. }
  destruct (cn_op c); try (by apply Hdef); destruct (span_projs l) as [[|e0 evs] r] eqn:Es; try (by eapply Hdef2);
    (apply pair_cons_fused; [done|done|]; apply IH; destruct (span_projs_spec l _ _ Es) as (_ & HL & _); simpl in HL; lia).
Qed.
Lemma exists_pair_sub f g cs : (forall a b, g a b = true -> f a b = true) -> exists_pair f cs = false -> exists_pair g cs = false.
Proof.
  intros H. induction cs as [|c1 l IH]; [done|]. destruct l as [|c2 l]; [done|]. rewrite !exists_pair_cons.
  intros E. apply orb_false_elim in E as [E1 E2]. rewrite IH by done. rewrite orb_false_r.
  destruct (g (cn_op c1) (cn_op c2)) eqn:Eg; [|done]. apply H in Eg. congruence.
Qed.
Lemma span_projs_nil_head l evs r c : span_projs l = (evs, r) -> exists_pair (fun a b => (is_sel a || is_proj a) && is_proj b) (c :: l) = false ->
  is_sel (cn_op c) || is_proj (cn_op c) = true -> evs = [].
Proof.
  destruct l as [|c2 l]; simpl; [by intros [= <- <-]|].
  destruct (cn_op c2) eqn:E2; try by intros [= <- <-].
  intros _ H Hc. rewrite Hc in H. simpl in H. done.
Qed.
Lemma fuse_sel_projs_id n : forall cs, has_sel_projs cs || has_projs cs = false -> fuse_sel_projs n cs = cs.
Proof.
  assert (forall cs, exists_pair (fun a b => (is_sel a || is_proj a) && is_proj b) cs = false -> fuse_sel_projs n cs = cs) as G.
  { induction n as [|n IH]; intros cs H; [done|]. destruct cs as [|c l]; [done|]. simpl.
    assert (El : fuse_sel_projs n l = l) by (apply IH; by eapply exists_pair_tail).
    destruct (cn_op c) eqn:Ec; try (by rewrite El); destruct (span_projs l) as [evs r] eqn:Es;
      rewrite (span_projs_nil_head l evs r c Es H) by (by rewrite Ec); by rewrite El. }
  intros cs H. apply G. apply orb_false_elim in H as [H1 H2]. clear G n.
  induction cs as [|c1 l IH]; [done|]. destruct l as [|c2 l]; [done|]. unfold has_sel_projs, has_projs in *.
  rewrite exists_pair_cons in *. apply orb_false_elim in H1 as [H1 H1'], H2 as [H2 H2']. rewrite IH by done.
  rewrite orb_false_r, andb_orb_distrib_l, H1, H2. done.
Qed.

Lemma lift_cons c cs : lift (c :: cs) = (if is_nonlinear (cn_op c) && negb (cn_lifted c)
    then [CNode new_integrator false; CNode (cn_op c) true; CNode new_differentiator false] else [c]) ++ lift cs.
Proof. done. Qed.
Lemma can_lift_lift cs : can_lift (lift cs) = false.
Proof.
  unfold can_lift. induction cs as [|c cs IH]; [done|]. rewrite lift_cons, existsb_app, IH, orb_false_r.
  destruct (is_nonlinear (cn_op c) && negb (cn_lifted c)) eqn:E; simpl.
  - by rewrite andb_false_r.
  - by rewrite E.
Qed.
Lemma lift_id cs : can_lift cs = false -> lift cs = cs.
Proof.
  unfold can_lift. induction cs as [|c cs IH]; [done|]. rewrite lift_cons. simpl. intros H. apply orb_false_elim in H as [-> H].
  by rewrite IH.
Qed.
(** Every node of a fused chain is an old one or a fused operator. *)
Lemma span_projs_in cs : forall evs r c, span_projs cs = (evs, r) -> In c r -> In c cs.
Proof.
  induction cs as [|c0 cs IH]; simpl; intros evs r c E H; [injection E as <- <-; done|].
  destruct (cn_op c0) eqn:Ec; try (injection E as <- <-; exact H).
  destruct (span_projs cs) as [evs' r']. injection E as <- <-. eauto.
Qed.
Lemma fuse_sel_projs_in n : forall cs c, In c (fuse_sel_projs n cs) ->
  In c cs \/ match cn_op c with OSelProjs _ _ => True | _ => False end.
Proof.
  induction n as [|n IH]; intros cs c H; [by left|]. destruct cs as [|c0 l]; [done|]. simpl in H.
  assert (Hdef : In c (c0 :: fuse_sel_projs n l) -> In c (c0 :: l) \/ match cn_op c with OSelProjs _ _ => True | _ => False end).
  { intros [->|H']; [left; by left|]. destruct (IH l c H') as [?|?]; [left; by right|by right]. }
  destruct (cn_op c0); try exact (Hdef H); destruct (span_projs l) as [[|e0 evs] r] eqn:Es; try exact (Hdef H);
    (destruct H as [<-|H]; [by right|]; destruct (IH r c H) as [?|?]; [|by right]; left; right; eapply span_projs_in; eauto).
Qed.
Lemma fuse_proj_sel_in cs c : In c (fuse_proj_sel cs) -> In c cs \/ match cn_op c with OProjSel _ _ => True | _ => False end.
Proof.
  remember (length cs) as n eqn:En. revert cs En. induction (lt_wf n) as [n _ IH]. intros cs -> H.
  destruct cs as [|c1 [|c2 l]]; [done|by left|]. rewrite fuse_proj_sel_eq in H.
  assert (Hdef : In c (c1 :: fuse_proj_sel (c2 :: l)) -> In c (c1 :: c2 :: l) \/ match cn_op c with OProjSel _ _ => True | _ => False end).
  { intros [->|H']; [left; by left|]. destruct (IH (length (c2 :: l)) ltac:(simpl; lia) (c2 :: l) eq_refl H') as [?|?]; [left; by right|by right]. }
  destruct (cn_op c1); try exact (Hdef H). destruct (cn_op c2); try exact (Hdef H).
  destruct H as [<-|H]; [by right|]. destruct (IH (length l) ltac:(simpl; lia) l eq_refl H) as [?|?]; [|by right]. left; by do 2 right.
Qed.
Lemma can_lift_fused (cs cs' : list cnode) : (forall c, In c cs' -> In c cs \/ match cn_op c with OProjSel _ _ | OSelProjs _ _ => True | _ => False end) ->
  can_lift cs = false -> can_lift cs' = false.
Proof.
  intros H E. unfold can_lift in *. apply not_true_is_false. intros [c [Hc Hb]]%existsb_exists.
  destruct (H c Hc) as [H'|H'].
  - rewrite <- not_true_iff_false in E. apply E. apply existsb_exists. eauto.
  - unfold is_nonlinear in Hb. destruct (cn_op c); try done.
Qed.

(** Chains without distinct and without adjacent integrate/differentiate. *)
Definition calm (cs : list cnode) : Prop := can_lift cs = false /\ can_id_elim cs = false /\ can_distinct cs = false.
Lemma calm_sel_projs n cs : calm cs -> calm (fuse_sel_projs n cs).
Proof.
  intros (H1 & H2 & H3). split_and!.
  - eapply can_lift_fused; [|exact H1]. intros c Hc. apply fuse_sel_projs_in in Hc as [?|?]; [by left|right]. by destruct (cn_op c).
  - apply fuse_sel_projs_pairs; [|done]. blind.
  - apply fuse_sel_projs_pairs; [|done]. blind.
Qed.
Lemma calm_proj_sel cs : calm cs -> calm (fuse_proj_sel cs).
Proof.
  intros (H1 & H2 & H3). split_and!.
  - eapply can_lift_fused; [|exact H1]. intros c Hc. apply fuse_proj_sel_in in Hc as [?|?]; [by left|right]. by destruct (cn_op c).
  - apply fuse_proj_sel_pairs; [|done]. blind.
  - apply fuse_proj_sel_pairs; [|done]. blind.
Qed.

Lemma calm_lift ps : forallb user_op ps = true -> calm (lift (user_chain ps)).
Proof.
  intros H. split; [apply can_lift_lift|].
  assert (G : can_id_elim (lift (user_chain ps)) = false /\ can_distinct (lift (user_chain ps)) = false
    /\ match lift (user_chain ps) with c :: _ => is_diff (cn_op c) = false /\ is_distinct (cn_op c) = false | [] => True end).
  { induction ps as [|p ps IH]; [done|]. simpl in H. apply andb_prop in H as [Hp H].
    change (user_chain (p :: ps)) with (CNode p false :: user_chain ps). rewrite lift_cons.
    specialize (IH H) as (I1 & I2 & I3). unfold can_id_elim, can_distinct in *.
    destruct (lift (user_chain ps)) as [|c l]; [by destruct p|]. destruct I3 as [I3 I4].
    destruct p; try done; simpl in I1, I2 |- *; rewrite ?I1, ?I2, ?I3, ?I4; done. }
  tauto.
Qed.

(** ** Optimize *)
Definition inc_join (j : option jop) : option jop :=
  match j with Some j => Some (default j (incrementalize_join j)) | None => None end.
Definition opt_chain (cs : list cnode) : list cnode :=
  let l := lift cs in fuse_proj_sel (fuse_sel_projs (length l) l).

Lemma inc_join_done j : match inc_join j with Some j => incrementalize_join j | None => None end = None.
Proof. by destruct j as [[]|]. Qed.

Lemma loop_done n ins j cs : calm cs -> match j with Some j => incrementalize_join j | None => None end = None ->
  has_sel_projs cs || has_projs cs = false -> has_proj_sel cs = false ->
  rewrite_step (Graph ins j cs) = None /\ optimize_loop (S (S n)) (Graph ins j cs) = (Graph ins j cs, true).
Proof.
  intros (H1 & H2 & H3) Hj H4 H5.
  assert (E : rewrite_step (Graph ins j cs) = None).
  { unfold rewrite_step. simpl. by rewrite Hj, H1, H2, H3, H4, H5. }
  split; [done|]. change (optimize_loop (S (S n)) (Graph ins j cs)) with
    (match rewrite_step (Graph ins j cs) with Some g' => optimize_loop (S n) g' | None => (Graph ins j cs, negb (Nat.eqb (S n) 0)) end).
  by rewrite E.
Qed.
Lemma optimize_loop_S n g : optimize_loop (S n) g =
  match rewrite_step g with Some g' => optimize_loop n g' | None => (g, negb (Nat.eqb n 0)) end.
Proof. done. Qed.

Lemma sel_projs_split cs : exists_pair (fun a b => (is_sel a || is_proj a) && is_proj b) cs = false -> has_sel_projs cs || has_projs cs = false.
Proof.
  intros H. unfold has_sel_projs, has_projs.
  rewrite (exists_pair_sub _ (fun a b => is_sel a && is_proj b) cs) with (2 := H).
  - simpl. eapply exists_pair_sub; [|exact H]. intros [] []; done.
  - intros [] []; done.
Qed.

Lemma loop_proj_sel n ins j cs : calm cs -> match j with Some j => incrementalize_join j | None => None end = None ->
  has_sel_projs cs || has_projs cs = false ->
  rewrite_step (Graph ins j (fuse_proj_sel cs)) = None /\
  optimize_loop (S (S (S n))) (Graph ins j cs) = (Graph ins j (fuse_proj_sel cs), true).
Proof.
  intros Hc Hj H4.
  assert (H4' : has_sel_projs (fuse_proj_sel cs) || has_projs (fuse_proj_sel cs) = false).
  { apply orb_false_elim in H4 as [? ?]. unfold has_sel_projs, has_projs in *.
    rewrite !fuse_proj_sel_pairs; try done; blind. }
  pose proof (loop_done n ins j (fuse_proj_sel cs) (calm_proj_sel cs Hc) Hj H4' (fuse_proj_sel_none cs)) as [D1 D2].
  split; [done|]. rewrite optimize_loop_S.
  destruct (has_proj_sel cs) eqn:E.
  - destruct Hc as (H1 & H2 & H3).
    replace (rewrite_step (Graph ins j cs)) with (Some (Graph ins j (fuse_proj_sel cs))); [exact D2|].
    unfold rewrite_step. simpl. by rewrite Hj, H1, H2, H3, H4, E.
  - rewrite fuse_proj_sel_id in * by done. by rewrite D1.
Qed.
Lemma loop_sel_projs n ins j cs : calm cs -> match j with Some j => incrementalize_join j | None => None end = None ->
  rewrite_step (Graph ins j (fuse_proj_sel (fuse_sel_projs (length cs) cs))) = None /\
  optimize_loop (S (S (S (S n)))) (Graph ins j cs) = (Graph ins j (fuse_proj_sel (fuse_sel_projs (length cs) cs)), true).
Proof.
  intros Hc Hj.
  assert (HN : has_sel_projs (fuse_sel_projs (length cs) cs) || has_projs (fuse_sel_projs (length cs) cs) = false).
  { apply sel_projs_split. by apply fuse_sel_projs_none. }
  destruct (loop_proj_sel n ins j (fuse_sel_projs (length cs) cs) (calm_sel_projs _ cs Hc) Hj HN) as [D1 D2].
  split; [done|]. destruct (has_sel_projs cs || has_projs cs) eqn:E.
  - rewrite optimize_loop_S. destruct Hc as (H1 & H2 & H3).
    replace (rewrite_step (Graph ins j cs)) with (Some (Graph ins j (fuse_sel_projs (length cs) cs))); [exact D2|].
    unfold rewrite_step. simpl. by rewrite Hj, H1, H2, H3, E.
  - rewrite fuse_sel_projs_id in * by done. by apply loop_proj_sel.
Qed.
Lemma loop_lift n ins j cs : calm (lift cs) -> match j with Some j => incrementalize_join j | None => None end = None ->
  rewrite_step (Graph ins j (opt_chain cs)) = None /\
  optimize_loop (S (S (S (S (S n))))) (Graph ins j cs) = (Graph ins j (opt_chain cs), true).
Proof.
  intros Hc Hj. destruct (loop_sel_projs n ins j (lift cs) Hc Hj) as [D1 D2]. split; [exact D1|].
  destruct (can_lift cs) eqn:E.
  - rewrite optimize_loop_S.
    replace (rewrite_step (Graph ins j cs)) with (Some (Graph ins j (lift cs))); [exact D2|].
    unfold rewrite_step. simpl. by rewrite Hj, E.
  - unfold opt_chain. rewrite lift_id in * by done. by apply loop_sel_projs.
Qed.
Lemma loop_join n ins j cs : calm (lift cs) ->
  rewrite_step (Graph ins (inc_join j) (opt_chain cs)) = None /\
  optimize_loop (S (S (S (S (S (S n)))))) (Graph ins j cs) = (Graph ins (inc_join j) (opt_chain cs), true).
Proof.
  intros Hc. destruct (loop_lift n ins (inc_join j) cs Hc (inc_join_done j)) as [D1 D2]. split; [exact D1|].
  destruct (match j with Some j => incrementalize_join j | None => None end) as [j'|] eqn:E.
  - rewrite optimize_loop_S. destruct j as [j|]; [|done]. simpl in *. rewrite E in *. simpl in *.
    replace (rewrite_step (Graph ins (Some j) cs)) with (Some (Graph ins (Some j') cs)); [exact D2|].
    unfold rewrite_step. simpl. by rewrite E.
  - assert (inc_join j = j) as -> by (destruct j as [j|]; simpl in *; [by rewrite E|done]). by apply loop_lift.
Qed.

(** ** Pipelines *)
Lemma add_inputs_join kinds : forall g, g_join (foldl add_input g kinds) = g_join g /\ g_chain (foldl add_input g kinds) = g_chain g.
Proof.
  induction kinds as [|k kinds IH]; intros g; [done|]. simpl. destruct (IH (add_input g k)) as [-> ->].
  unfold add_input. by case_decide.
Qed.
Lemma add_to_chains ps : forall g, foldl add_to_chain g ps = Graph (g_inputs g) (g_join g) (g_chain g ++ user_chain ps).
Proof.
  induction ps as [|p ps IH]; intros g; simpl; [rewrite app_nil_r; by destruct g|].
  rewrite IH. simpl. by rewrite <- app_assoc.
Qed.
Lemma add_inputs_sub kinds : forall g n, n ∈ g_inputs (foldl add_input g kinds) <-> n ∈ g_inputs g \/ n ∈ kinds.
Proof.
  induction kinds as [|k kinds IH]; intros g n; simpl; [set_solver|]. rewrite IH.
  unfold add_input. case_decide; simpl; set_solver.
Qed.
Lemma add_inputs_nodup kinds : forall g, NoDup (g_inputs g ++ kinds) -> g_inputs (foldl add_input g kinds) = g_inputs g ++ kinds.
Proof.
  induction kinds as [|k kinds IH]; intros g H; simpl; [by rewrite app_nil_r|].
  assert (k ∉ g_inputs g).
  { apply NoDup_app in H as (_ & H & _). intros Hk. apply (H k Hk). by left. }
  unfold add_input at 2. rewrite decide_False by done. rewrite IH; simpl; by rewrite <- app_assoc.
Qed.
Definition input_names (kinds : list string) : list string := g_inputs (foldl add_input new_graph kinds).

Lemma pipeline_graph_eq kinds join ps g : pipeline_graph kinds join ps = Some g ->
  g = Graph (input_names kinds) ((fun jev => new_join jev (length kinds)) <$> join) (user_chain ps).
Proof.
  unfold pipeline_graph, build_graph. intros H.
  assert (E : Some (foldl add_to_chain (match join with Some jev => set_join (foldl add_input new_graph kinds) (new_join jev (length kinds))
     | None => foldl add_input new_graph kinds end) ps) = Some g).
  { destruct kinds as [|? [|? ?]], join; done. }
  injection E as <-. destruct (add_inputs_join kinds new_graph) as [Ej Ec].
  rewrite add_to_chains. unfold input_names. destruct join; simpl; rewrite ?Ej, ?Ec; done.
Qed.

Lemma pipeline_inc_graph_eq kinds join ps g : pipeline_graph kinds join ps = Some g ->
  pipeline_inc_graph kinds join ps = Some (Graph (g_inputs g) (inc_join (g_join g)) (g_chain g)).
Proof.
  intros H. rewrite (pipeline_graph_eq _ _ _ _ H). unfold pipeline_graph, pipeline_inc_graph, build_graph in *.
  assert (E : match kinds, join with _ :: _ :: _, None => None | _, _ =>
      Some (foldl add_to_chain (match join with Some jev => set_join (foldl add_input new_graph kinds) (new_inc_join jev (length kinds))
     | None => foldl add_input new_graph kinds end) ps) end = Some (foldl add_to_chain (match join with Some jev => set_join (foldl add_input new_graph kinds) (new_inc_join jev (length kinds))
     | None => foldl add_input new_graph kinds end) ps)).
  { destruct kinds as [|? [|? ?]], join; done. }
  etransitivity; [exact E|]. destruct (add_inputs_join kinds new_graph) as [Ej Ec].
  rewrite add_to_chains. unfold input_names. destruct join; simpl; rewrite ?Ej, ?Ec; done.
Qed.
Lemma pipeline_new_none kinds join ps : pipeline_graph kinds join ps = None -> pipeline_new kinds join ps = None.
Proof.
  unfold pipeline_new, pipeline_graph, pipeline_inc_graph, build_graph.
  destruct kinds as [|? [|? ?]], join; done.
Qed.
Lemma inc_join_idem j : inc_join (inc_join j) = inc_join j.
Proof. destruct j as [[]|]; done. Qed.

Lemma c12_optimize kinds join ps g : pipeline_graph kinds join ps = Some g -> forallb user_op ps = true -> kinds <> [] ->
  optimize g = (Graph (g_inputs g) (inc_join (g_join g)) (opt_chain (g_chain g)), true)
  /\ rewrite_step (optimize g).1 = None
  /\ pipeline_new kinds join ps = Some (optimize g).1.
Proof.
  intros Hg Hu Hk. pose proof (pipeline_graph_eq _ _ _ _ Hg) as ->.
  set (ins := input_names kinds). set (j := (fun jev => new_join jev (length kinds)) <$> join).
  assert (V : forall cs, validate (Graph ins j cs) = true).
  { intros cs. assert (ins <> []).
    { destruct kinds as [|k kinds]; [done|]. unfold ins, input_names. intros E.
      assert (k ∈ g_inputs (foldl add_input new_graph (k :: kinds))) as Hin by (apply add_inputs_sub; right; by left).
      rewrite E in Hin. by apply elem_of_nil in Hin. }
    unfold validate. simpl. destruct ins as [|i0 [|i1 ins']] eqn:Ei; [done|done|].
    unfold j. destruct join as [jev|]; [done|]. exfalso.
    unfold pipeline_graph, build_graph in Hg. destruct kinds as [|k0 [|k1 kinds]]; [done| |done].
    unfold ins, input_names in Ei. simpl in Ei. unfold add_input in Ei. simpl in Ei. done. }
  destruct (loop_join 14 ins j (user_chain ps) (calm_lift ps Hu)) as [D1 D2].
  assert (E : optimize (Graph ins j (user_chain ps)) = (Graph ins (inc_join j) (opt_chain (user_chain ps)), true)).
  { unfold optimize. rewrite V. exact D2. }
  split_and!; [exact E|by rewrite E|].
  unfold pipeline_new. rewrite (pipeline_inc_graph_eq _ _ _ _ Hg). unfold mbind, option_bind. cbn [g_inputs g_join g_chain].
  fold ins j.
  assert (optimize (Graph ins (inc_join j) (user_chain ps)) = (Graph ins (inc_join j) (opt_chain (user_chain ps)), true)) as ->.
  { unfold optimize.
    assert (validate (Graph ins (inc_join j) (user_chain ps)) = true) as ->.
    { pose proof (V (user_chain ps)) as V'. unfold validate in *; simpl in *.
      destruct ins as [|i0 [|i1 ins']]; [done|done|]. unfold j in *. by destruct join. }
    destruct (loop_join 14 ins (inc_join j) (user_chain ps) (calm_lift ps Hu)) as [_ D3].
    rewrite inc_join_idem in D3. exact D3. }
  rewrite E. cbn [fst andb].
  assert (validate (Graph ins (inc_join j) (opt_chain (user_chain ps))) = true) as ->; [|done].
  pose proof (V (opt_chain (user_chain ps))) as V'. unfold validate in *; simpl in *.
  destruct ins as [|i0 [|i1 ins']]; [done|done|]. unfold j in *. by destruct join.
Qed.
Lemma c12_construction kinds join ps : forallb user_op ps = true -> kinds <> [] ->
  pipeline_new kinds join ps = None <-> join = None /\ (1 < length kinds)%nat.
Proof.
  intros Hu Hk. destruct (pipeline_graph kinds join ps) as [g|] eqn:Hg.
  - destruct (c12_optimize kinds join ps g Hg Hu Hk) as (_ & _ & ->). split; [done|].
    intros [-> L]. destruct kinds as [|? [|? ?]]; simpl in *; try lia. done.
  - rewrite (pipeline_new_none _ _ _ Hg). split; [|done]. intros _. unfold pipeline_graph, build_graph in Hg.
    destruct kinds as [|? [|? ?]]; try done. destruct join; [done|]. simpl. split; [done|lia].
Qed.
End opt.
