(** Fused operators are deterministic; what this means for the runs of
    rewritten chains (C11). *)
From Verif Require Import ZSetModel OpsModel ExecModel ZSetSpec ZSetProofs ZSetProofs2 OpsSpec OpsProofs GatherSpec ExecSpec StreamProofs JoinProofs ChainProofs ChainProofs2 OptProofs.

Section det.
Context {DD : Docs}.
Variable sortv : list val -> list val.

Lemma same_key_match (l1 l2 : list doc) : Permutation (map key l1) (map key l2) ->
  exists l, Permutation l2 l /\ Forall2 (fun a b => key a = key b) l1 l.
Proof.
  intros P. apply Permutation_map_inv in P as (l & E & P). exists l. split; [done|].
  clear P. revert l E. induction l1 as [|a l1 IH]; destruct l as [|b l]; simpl; intros E; try done; constructor; [congruence|].
  apply IH. congruence.
Qed.
Lemma mapM_perm {A B} (f : A -> option B) l l' : Permutation l l' ->
  match mapM f l, mapM f l' with None, None => True | Some a, Some b => Permutation a b | _, _ => False end.
Proof.
  induction 1 as [|x l l' P IH|x y l|l l' l'' P IH P' IH']; simpl; [done| | |].
  - destruct (f x); simpl; [|done]. destruct (mapM f l), (mapM f l'); simpl; try done. by constructor.
  - destruct (f x), (f y); simpl; try done; [|by destruct (mapM f l)..]. destruct (mapM f l); simpl; [|done]. constructor.
  - destruct (mapM f l), (mapM f l'), (mapM f l''); try done. by etrans.
Qed.
Lemma pts_ev_ok pe se : ev_ok pe -> ev_keyed pe -> ev_ok se -> ev_ok (pts_ev pe se).
Proof.
  intros Hp Kp Hs d1 d2 k E1 E2. unfold pts_ev. specialize (Hp d1 d2 k E1 E2).
  destruct (pe d1) as [l1|] eqn:P1, (pe d2) as [l2|] eqn:P2; simpl; try done.
  destruct (same_key_match l1 l2 Hp) as (l & Pl & F).
  assert (K1 : forall d, In d l1 -> is_Some (key d)) by (intros d; apply (Kp d1 l1); [by exists k|done]).
  assert (H : match mapM se l1, mapM se l with None, None => True | Some a, Some b => Permutation (map key (concat a)) (map key (concat b)) | _, _ => False end).
  { clear -Hs F K1. induction F as [|a b l1 l E F IH]; simpl; [done|].
    destruct (K1 a (or_introl eq_refl)) as [ka Hka]. assert (Hkb : key b = Some ka) by congruence.
    specialize (Hs a b ka Hka Hkb). specialize (IH (fun d Hd => K1 d (or_intror Hd))).
    destruct (se a), (se b); simpl; try done. destruct (mapM se l1), (mapM se l); simpl; try done.
    rewrite !map_app. by apply Permutation_app. }
  pose proof (mapM_perm se l2 l Pl) as H2.
  destruct (mapM se l1) as [a|], (mapM se l) as [b|], (mapM se l2) as [c|]; simpl; try done.
  rewrite H. apply Permutation_map. rewrite !concat_join || idtac. clear -H2.
  induction H2; simpl; [done|by apply Permutation_app_head|rewrite !app_assoc; by apply Permutation_app_tail, Permutation_app_comm|by etrans].
Qed.
Lemma proj_chain_ok pes : Forall (fun ev => ev_ok ev /\ ev_keyed ev) pes -> forall d1 d2 k, key d1 = Some k -> key d2 = Some k ->
  match proj_chain pes d1, proj_chain pes d2 with None, None => True | Some a, Some b => key a = key b /\ is_Some (key a) | _, _ => False end.
Proof.
  induction 1 as [|pe pes [Hp Kp] F IH]; intros d1 d2 k E1 E2; simpl; [split; [congruence|eauto]|].
  specialize (Hp d1 d2 k E1 E2). destruct (pe d1) as [l1|] eqn:P1, (pe d2) as [l2|] eqn:P2; simpl; try done.
  pose proof (Permutation_length Hp) as L. rewrite !map_length in L.
  destruct l1 as [|a [|a' l1]], l2 as [|b [|b' l2]]; try done. simpl in Hp. apply Permutation_length_1 in Hp.
  destruct (Kp d1 [a] a ltac:(by exists k) P1) as [ka Hka]; [by left|]. apply (IH a b ka); congruence.
Qed.
Lemma stp_ev_ok se pes : match se with Some ev => ev_ok ev /\ ev_keyed ev | None => True end ->
  Forall (fun ev => ev_ok ev /\ ev_keyed ev) pes -> ev_ok (stp_ev se pes).
Proof.
  intros Hs Hp d1 d2 k E1 E2. unfold stp_ev.
  assert (G : forall l1 l2, Permutation (map key l1) (map key l2) -> (forall d, In d l1 -> is_Some (key d)) ->
    match mapM (proj_chain pes) l1, mapM (proj_chain pes) l2 with
    | None, None => True | Some a, Some b => Permutation (map key a) (map key b) | _, _ => False end).
  { intros l1 l2 P K1. destruct (same_key_match l1 l2 P) as (l & Pl & F).
    assert (H : match mapM (proj_chain pes) l1, mapM (proj_chain pes) l with None, None => True | Some a, Some b => map key a = map key b | _, _ => False end).
    { clear -Hp F K1. induction F as [|a b l1 l E F IH]; simpl; [done|].
      destruct (K1 a (or_introl eq_refl)) as [ka Hka]. assert (Hkb : key b = Some ka) by congruence.
      pose proof (proj_chain_ok pes Hp a b ka Hka Hkb) as HC. specialize (IH (fun d Hd => K1 d (or_intror Hd))).
      destruct (proj_chain pes a), (proj_chain pes b); simpl; try done. destruct (mapM _ l1), (mapM _ l); simpl; try done.
      f_equal; [apply HC|done]. }
    pose proof (mapM_perm (proj_chain pes) l2 l Pl) as H2.
    destruct (mapM _ l1) as [a|], (mapM _ l) as [b|], (mapM _ l2) as [c|]; simpl; try done.
    rewrite H. by apply Permutation_map. }
  destruct se as [se|]; simpl.
  - destruct Hs as [Hs Ks]. specialize (Hs d1 d2 k E1 E2). destruct (se d1) as [l1|] eqn:S1, (se d2) as [l2|] eqn:S2; simpl; try done.
    apply G; [done|]. intros d. by apply (Ks d1 l1).
  - apply (G [d1] [d2]); [simpl; rewrite E1, E2; done|]. intros d [<-|[]]. eauto.
Qed.
Lemma op_det_fused p : (match p with OProjSel _ _ | OSelProjs _ _ => True | _ => False end) -> evs_ok p -> op_det sortv p.
Proof.
  destruct p as [| | | | | | | |pe se|se pes]; try done; intros _ Hok.
  - destruct Hok as [[? ?] [? ?]]. apply (op_det_linear sortv (fun o => proj_then_sel o pe se) (pts_ev pe se)); [done|apply proj_then_sel_linear|by apply pts_ev_ok].
  - destruct Hok as [? ?]. apply (op_det_linear sortv (fun o => sel_then_projs o se pes) (stp_ev se pes)); [done|apply sel_then_projs_linear|by apply stp_ev_ok].
Qed.

(** The fused operators of a chain have well-behaved user code. *)
Lemma fuse_sel_projs_ok n cs : Forall evs_ok (map cn_op cs) -> Forall evs_ok (map cn_op (fuse_sel_projs n cs)).
Proof.
  assert (G : forall l evs r, Forall evs_ok (map cn_op l) -> span_projs l = (evs, r) -> Forall (fun ev => ev_ok ev /\ ev_keyed ev) evs /\ Forall evs_ok (map cn_op r)).
  { induction l as [|c l IH]; simpl; intros evs r F E; [injection E as <- <-; auto|]. apply Forall_cons in F as [Fc F].
    destruct (cn_op c) eqn:Ec; try (injection E as <- <-; split; [constructor|rewrite <- Ec in Fc; constructor; done]; fail).
    destruct (span_projs l) as [evs' r'] eqn:Es. injection E as <- <-. destruct (IH evs' r' F eq_refl). split; [constructor; done|done]. }
  revert cs. induction n as [|n IH]; intros cs F; [done|]. destruct cs as [|c l]; [done|]. simpl.
  apply Forall_cons in F as [Fc F]. destruct (cn_op c) eqn:Ec; try (constructor; [rewrite Ec; done|by apply IH]).
  - destruct (span_projs l) as [[|e evs] r] eqn:Es; [constructor; [rewrite Ec; done|by apply IH]|].
    destruct (G l _ _ F Es). constructor; [|by apply IH]. simpl. split; [done|]. constructor; [done|done].
  - destruct (span_projs l) as [[|e evs] r] eqn:Es; [constructor; [rewrite Ec; done|by apply IH]|].
    destruct (G l _ _ F Es). constructor; [|by apply IH]. done.
Qed.
Lemma fuse_proj_sel_ok cs : Forall evs_ok (map cn_op cs) -> Forall evs_ok (map cn_op (fuse_proj_sel cs)).
Proof.
  remember (length cs) as n eqn:En. revert cs En. induction (lt_wf n) as [n _ IH]. intros cs -> F.
  destruct cs as [|c1 [|c2 l]]; [done|done|]. rewrite fuse_proj_sel_eq. apply Forall_cons in F as [F1 F].
  assert (Hd : Forall evs_ok (map cn_op (c1 :: fuse_proj_sel (c2 :: l)))).
  { constructor; [done|]. apply (IH (length (c2 :: l))); [simpl; lia|done|done]. }
  destruct (cn_op c1) eqn:E1; try exact Hd. destruct (cn_op c2) eqn:E2; try exact Hd.
  apply Forall_cons in F as [F2 F]. constructor; [split; done|]. apply (IH (length l)); [simpl; lia|done|done].
Qed.
Lemma det_fused_chain cs cs' : Forall evs_ok (map cn_op cs') -> Forall (node_det sortv) (map cn_op cs) ->
  (forall c, In c cs' -> In c cs \/ match cn_op c with OProjSel _ _ | OSelProjs _ _ => True | _ => False end) ->
  Forall (node_det sortv) (map cn_op cs').
Proof.
  intros Hok Hd Hin. rewrite Forall_map in *. rewrite List.Forall_forall in *. intros c Hc.
  destruct (Hin c Hc) as [H|H]; [by apply Hd|]. specialize (Hok c Hc). simpl in Hok.
  pose proof (op_det_fused (cn_op c) H Hok) as D. simpl. destruct (cn_op c); done.
Qed.
Lemma det_sub cs cs' : Forall (node_det sortv) (map cn_op cs) -> (forall c, In c cs' -> In c cs) -> Forall (node_det sortv) (map cn_op cs').
Proof. intros Hd Hin. rewrite Forall_map in *. rewrite List.Forall_forall in *. intros c Hc. by apply Hd, Hin. Qed.
Lemma id_elim_in cs c : In c (id_elim cs) -> In c cs.
Proof.
  remember (length cs) as n eqn:En. revert cs En. induction (lt_wf n) as [n _ IH]. intros cs -> H.
  destruct cs as [|c1 [|c2 l]]; [done|done|].
  change (id_elim (c1 :: c2 :: l)) with (if is_int (cn_op c1) && is_diff (cn_op c2) then id_elim l else c1 :: id_elim (c2 :: l)) in H.
  destruct (_ && _).
  - right. right. apply (IH (length l)); [simpl; lia|done|done].
  - destruct H as [->|H]; [by left|]. right. apply (IH (length (c2 :: l))); [simpl; lia|done|done].
Qed.
Lemma distinct_opt_in cs c : In c (distinct_opt cs) -> In c cs.
Proof.
  remember (length cs) as n eqn:En. revert cs En. induction (lt_wf n) as [n _ IH]. intros cs -> H.
  destruct cs as [|c1 [|c2 l]]; [done|done|].
  change (distinct_opt (c1 :: c2 :: l)) with (if is_distinct (cn_op c1) && is_distinct (cn_op c2) then c2 :: distinct_opt l else c1 :: distinct_opt (c2 :: l)) in H.
  destruct (_ && _).
  - right. destruct H as [->|H]; [by left|]. right. apply (IH (length l)); [simpl; lia|done|done].
  - destruct H as [->|H]; [by left|]. right. apply (IH (length (c2 :: l))); [simpl; lia|done|done].
Qed.

Lemma node_det_wf cs : Forall (node_det sortv) (map cn_op cs) -> Forall op_wf (map cn_op cs) /\ Forall op_fresh (map cn_op cs).
Proof.
  intros H. rewrite !Forall_map in *. split; (eapply Forall_impl; [exact H|]); intros [p l]; simpl; destruct p; simpl; try done; intros ->; apply wf_empty.
Qed.
(** Inclusion of behaviours gives inclusion of runs. *)
Lemma stream_incl_run cs cs' o o' zs outs :
  (forall outs, chain_stream sortv cs zs outs -> chain_stream sortv cs' zs outs) ->
  Forall (node_det sortv) (map cn_op cs) -> Forall (node_det sortv) (map cn_op cs') -> order_ok o -> order_ok o' -> Forall zwf zs ->
  (chain_run sortv o 0 cs zs).2 = map Some outs ->
  exists outs', (chain_run sortv o' 0 cs' zs).2 = map Some outs' /\ Forall2 zeq outs outs'.
Proof.
  intros H D D' Ho Ho' Wz E.
  pose proof (chain_run_stream sortv o 0 cs zs outs Ho (proj1 (node_det_wf cs D)) Wz E) as S.
  destruct (chain_stream_run sortv zs cs' cs' outs o' 0 (H _ S) (chain_sim_refl sortv cs' D') Ho' Wz) as (outs' & E' & F & _). eauto.
Qed.
Lemma c11_id_elim cs o o' zs : Forall (node_det sortv) (map cn_op cs) -> order_ok o -> order_ok o' -> Forall zwf zs ->
  (forall outs, (chain_run sortv o 0 cs zs).2 = map Some outs -> exists outs', (chain_run sortv o' 0 (id_elim cs) zs).2 = map Some outs' /\ Forall2 zeq outs outs')
  /\ (forall outs, (chain_run sortv o' 0 (id_elim cs) zs).2 = map Some outs -> exists outs', (chain_run sortv o 0 cs zs).2 = map Some outs' /\ Forall2 zeq outs outs').
Proof.
  intros D Ho Ho' Wz. pose proof (det_sub cs (id_elim cs) D (id_elim_in cs)) as D'. destruct (node_det_wf cs D) as [W F].
  split; intros outs; apply stream_incl_run; auto; intros os; by apply id_elim_sound.
Qed.
Lemma c11_distinct cs o o' zs : Forall (node_det sortv) (map cn_op cs) -> order_ok o -> order_ok o' -> Forall zwf zs ->
  (forall outs, (chain_run sortv o 0 cs zs).2 = map Some outs -> exists outs', (chain_run sortv o' 0 (distinct_opt cs) zs).2 = map Some outs' /\ Forall2 zeq outs outs')
  /\ (forall outs, (chain_run sortv o' 0 (distinct_opt cs) zs).2 = map Some outs -> exists outs', (chain_run sortv o 0 cs zs).2 = map Some outs' /\ Forall2 zeq outs outs').
Proof.
  intros D Ho Ho' Wz. pose proof (det_sub cs (distinct_opt cs) D (distinct_opt_in cs)) as D'. destruct (node_det_wf cs D) as [W F].
  split; intros outs; apply stream_incl_run; auto; intros os; by apply distinct_opt_sound.
Qed.
Lemma c11_fuse_sel_projs cs o o' zs : Forall (node_det sortv) (map cn_op cs) -> Forall evs_ok (map cn_op cs) -> order_ok o -> order_ok o' -> Forall zwf zs ->
  (Forall evs_total (map cn_op cs) -> forall outs, (chain_run sortv o 0 cs zs).2 = map Some outs -> exists outs', (chain_run sortv o' 0 (fuse_sel_projs (length cs) cs) zs).2 = map Some outs' /\ Forall2 zeq outs outs')
  /\ (forall outs, (chain_run sortv o' 0 (fuse_sel_projs (length cs) cs) zs).2 = map Some outs -> exists outs', (chain_run sortv o 0 cs zs).2 = map Some outs' /\ Forall2 zeq outs outs').
Proof.
  intros D Hok Ho Ho' Wz.
  assert (D' : Forall (node_det sortv) (map cn_op (fuse_sel_projs (length cs) cs))).
  { eapply det_fused_chain; [by apply fuse_sel_projs_ok|exact D|]. intros c Hc. apply fuse_sel_projs_in in Hc as [?|?]; [by left|right; by destruct (cn_op c)]. }
  destruct (node_det_wf cs D) as [W F].
  split; [intros Ht outs|intros outs]; apply stream_incl_run; auto; intros os; [by apply fuse_sel_projs_complete|by apply fuse_sel_projs_sound].
Qed.
Lemma c11_fuse_proj_sel cs o o' zs : Forall (node_det sortv) (map cn_op cs) -> Forall evs_ok (map cn_op cs) -> order_ok o -> order_ok o' -> Forall zwf zs ->
  (Forall evs_total (map cn_op cs) -> forall outs, (chain_run sortv o 0 cs zs).2 = map Some outs -> exists outs', (chain_run sortv o' 0 (fuse_proj_sel cs) zs).2 = map Some outs' /\ Forall2 zeq outs outs')
  /\ (forall outs, (chain_run sortv o' 0 (fuse_proj_sel cs) zs).2 = map Some outs -> exists outs', (chain_run sortv o 0 cs zs).2 = map Some outs' /\ Forall2 zeq outs outs').
Proof.
  intros D Hok Ho Ho' Wz.
  assert (D' : Forall (node_det sortv) (map cn_op (fuse_proj_sel cs))).
  { eapply det_fused_chain; [by apply fuse_proj_sel_ok|exact D|]. intros c Hc. apply fuse_proj_sel_in in Hc as [?|?]; [by left|right; by destruct (cn_op c)]. }
  destruct (node_det_wf cs D) as [W F].
  split; [intros Ht outs|intros outs]; apply stream_incl_run; auto; intros os; [by apply fuse_proj_sel_complete|by apply fuse_proj_sel_sound].
Qed.
End det.
