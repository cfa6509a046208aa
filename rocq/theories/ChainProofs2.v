(** Behaviours of chains under the rewrite rules. *)
From Verif Require Import ZSetModel OpsModel ExecModel ZSetSpec ZSetProofs ZSetProofs2 OpsSpec OpsProofs ExecSpec StreamProofs JoinProofs ChainProofs.

Section chains.
Context {DD : Docs}.
Variable sortv : list val -> list val.
Local Notation process := (process sortv).
Local Notation op_stream := (op_stream sortv).
Local Notation chain_stream := (chain_stream sortv).
Local Notation scratch := (scratch sortv).
Local Notation chain_process := (chain_process sortv).
Local Notation chain_run := (chain_run sortv).
Local Notation op_det := (op_det sortv).
Implicit Types (z a b : zset) (k : ident).

Lemma zeq_list_refl zs : Forall2 zeq zs zs.
Proof. induction zs; constructor; done. Qed.
Lemma zeq_list_sym xs ys : Forall2 zeq xs ys -> Forall2 zeq ys xs.
Proof. induction 1; constructor; [by symmetry|done]. Qed.
Lemma zeq_list_trans xs ys zs : Forall2 zeq xs ys -> Forall2 zeq ys zs -> Forall2 zeq xs zs.
Proof. intros F. revert zs. induction F; inversion 1; subst; constructor; [etrans; eauto|auto]. Qed.

(** ** op_stream *)
Lemma op_stream_eq_l p zs zs' ys : op_stream p zs ys -> Forall2 zeq zs zs' -> op_stream p zs' ys.
Proof.
  intros H. revert zs'. induction H as [|o p z z' p1 y zs ys Ho W E P H IH]; intros zs' F; inversion F; subst; [constructor|].
  eapply op_stream_cons; [exact Ho|exact W| |exact P|auto]. etrans; [symmetry; eassumption|done].
Qed.
Lemma op_stream_wf p zs ys : op_stream p zs ys -> op_wf p -> Forall zwf ys.
Proof.
  induction 1 as [|o p z z' p1 y zs ys Ho W E P H IH]; intros Wp; [constructor|].
  destruct (process_wf sortv o p z' p1 (Some y) Ho Wp W P) as [Wp1 Wy]. constructor; auto.
Qed.
Lemma op_stream_length p zs ys : op_stream p zs ys -> length ys = length zs.
Proof. induction 1; simpl; lia. Qed.
Lemma op_stream_stateless p zs ys : stateless p -> op_stream p zs ys <->
  Forall2 (fun z y => exists o z', order_ok o /\ zwf z' /\ zeq z z' /\ (process o p z').2 = Some y) zs ys.
Proof.
  intros S. split.
  - induction 1 as [|o p z z' p1 y zs ys Ho W E P H IH]; [constructor|].
    pose proof (stateless_step sortv o p z' S) as Ep. rewrite P in Ep. simpl in Ep. subst p1.
    constructor; [|auto]. exists o, z'. by rewrite P.
  - induction 1 as [|z y zs ys (o & z' & Ho & W & E & P) F IH]; [constructor|].
    eapply op_stream_cons; [exact Ho|exact W|exact E| |exact IH].
    rewrite (surjective_pairing (process o p z')). rewrite stateless_step, P by done. done.
Qed.
Lemma orun_op_stream p zs ys : orun sortv p zs ys -> op_wf p -> Forall zwf zs -> op_stream p zs ys.
Proof.
  induction 1 as [|o p z p1 y zs ys Ho P H IH]; intros Wp Wz; [constructor|].
  apply Forall_cons in Wz as [Wz Wzs].
  destruct (process_wf sortv o p z p1 (Some y) Ho Wp Wz P) as [Wp1 Wy].
  eapply op_stream_cons; [exact Ho|exact Wz|done|exact P|auto].
Qed.

(** ** chain_stream *)
Lemma chain_stream_eq_l cs zs zs' outs : chain_stream cs zs outs -> Forall2 zeq zs zs' -> chain_stream cs zs' outs.
Proof.
  destruct cs as [|c cs]; simpl.
  - intros H. revert zs'. induction H as [|z y zs ys [W E] H IH]; intros zs' F; inversion F; subst; constructor; auto.
    split; [done|]. etrans; [symmetry; eassumption|done].
  - intros (mid & H1 & H2) F. exists mid. split; [|done]. by eapply op_stream_eq_l.
Qed.
Lemma chain_stream_eq_r cs : forall zs outs outs', chain_stream cs zs outs -> Forall zwf outs' -> Forall2 zeq outs outs' -> chain_stream cs zs outs'.
Proof.
  induction cs as [|c cs IH]; simpl; intros zs outs outs' H W F.
  - revert outs' W F. induction H as [|z y zs ys [Wy E] H IH]; intros outs' W F; inversion F; subst; constructor; auto.
    + apply Forall_cons in W as [? _]. split; [done|]. by etrans.
    + apply Forall_cons in W as [_ ?]. auto.
  - destruct H as (mid & H1 & H2). exists mid. split; [done|]. eauto.
Qed.
Lemma chain_stream_ops cs cs' zs outs : map cn_op cs = map cn_op cs' -> chain_stream cs zs outs -> chain_stream cs' zs outs.
Proof.
  revert cs' zs. induction cs as [|c cs IH]; intros [|c' cs'] zs; simpl; try done.
  intros [= -> E] (mid & H1 & H2). exists mid. split; [done|]. eauto.
Qed.
Lemma wf_self zs : Forall zwf zs -> Forall2 (fun z y => zwf y /\ zeq z y) zs zs.
Proof. induction 1; constructor; [by split|done]. Qed.
Lemma chain_stream_app cs1 cs2 : forall zs outs, Forall op_wf (map cn_op cs1) -> Forall zwf zs ->
  chain_stream (cs1 ++ cs2) zs outs <-> exists mid, chain_stream cs1 zs mid /\ chain_stream cs2 mid outs.
Proof.
  induction cs1 as [|c cs1 IH]; simpl; intros zs outs Wc Wz.
  - split.
    + intros H. exists zs. split; [|done]. by apply wf_self.
    + intros (mid & H1 & H2). eapply chain_stream_eq_l; [exact H2|].
      clear -H1. induction H1 as [|? ? ? ? [? ?]]; constructor; [by symmetry|done].
  - apply Forall_cons in Wc as [Wc Wcs]. split.
    + intros (m & H1 & H2). apply IH in H2 as (mid & H2 & H3); [|done|by eapply op_stream_wf]. eauto.
    + intros (mid & (m & H1 & H2) & H3). exists m. split; [done|]. apply IH; [done|by eapply op_stream_wf|]. eauto.
Qed.
Lemma chain_stream_wf cs : forall zs outs, chain_stream cs zs outs -> Forall zwf outs.
Proof.
  induction cs as [|c cs IH]; simpl; intros zs outs H.
  - induction H as [|? ? ? ? [? ?]]; constructor; auto.
  - destruct H as (m & _ & H). eauto.
Qed.
Lemma chain_steps_stream cs : forall zs outs, chain_steps sortv cs zs outs -> Forall op_wf (map cn_op cs) -> Forall zwf zs -> chain_stream cs zs outs.
Proof.
  induction cs as [|c cs IH]; simpl; intros zs outs R Wc Wz.
  - apply chain_steps_nil in R as ->. by apply wf_self.
  - apply Forall_cons in Wc as [Wc Wcs]. apply chain_steps_cons in R as (mid & R1 & R2).
    exists mid. split; [by apply orun_op_stream|]. apply IH; auto. eapply orun_wf; eauto.
Qed.

(** Stateless chains: one evaluation at a time. *)
Lemma chain_stream_stateless ps : Forall stateless ps -> forall zs outs,
  chain_stream (user_chain ps) zs outs <-> Forall2 (scratch ps) zs outs.
Proof.
  induction 1 as [|p ps Sp Sps IH]; simpl; intros zs outs.
  - split; induction 1 as [|z y zs ys H F IHF]; constructor; auto.
    + destruct H. by constructor.
    + by inversion H.
  - split.
    + intros (mid & H1 & H2). apply IH in H2. apply op_stream_stateless in H1; [|done].
      revert outs H2. induction H1 as [|z m zs mid (o & z' & Ho & W & E & P) F IHF]; intros outs H2; inversion H2; subst; constructor; auto.
      eapply scratch_cons; eauto.
    + intros F. assert (exists mid, Forall2 (fun z y => exists o z', order_ok o /\ zwf z' /\ zeq z z' /\ (process o p z').2 = Some y) zs mid
         /\ Forall2 (scratch ps) mid outs) as (mid & H1 & H2).
      { induction F as [|z y zs ys H F (mid & H1 & H2)]; [by exists []|].
        inversion H as [|o p' ps' a a' b c Ho W E P H']; subst.
        exists (b :: mid). split; constructor; eauto 10. }
      exists mid. split; [by apply op_stream_stateless|]. by apply IH.
Qed.

(** ** Integrate-differentiate *)
Lemma id_stream zs : forall s p m1 m2, zwf s -> zwf p -> zeq s p ->
  op_stream (OInt s) zs m1 -> op_stream (ODiff p) m1 m2 -> Forall2 zeq zs m2.
Proof.
  induction zs as [|z zs IH]; intros s p m1 m2 Ws Wp E H1 H2; inversion H1; subst; inversion H2; subst; [constructor|].
  match goal with H : process _ (OInt s) ?zi = (?p1, Some ?y), Wz : zwf ?zi |- _ =>
    destruct (int_step sortv o s zi) as (s' & E' & Ws' & Ms); auto; rewrite E' in H; injection H as <- <- end.
  match goal with H : process _ (ODiff p) ?zi = (?p1, Some ?y), Wz : zwf ?zi |- _ =>
    destruct (diff_step sortv o0 p zi) as (y' & E'' & Wy' & My); auto; rewrite E'' in H; injection H as <- <- end.
  constructor.
  - intros k. rewrite My.
    match goal with H : zeq s' _ |- _ => rewrite <- (H k) end. rewrite Ms, (E k).
    match goal with H : zeq z _ |- _ => rewrite (H k) end. lia.
  - eapply IH; [..|eassumption|eassumption]; auto.
Qed.
Lemma int_stream_ex zs : Forall zwf zs -> forall s, zwf s -> exists m, op_stream (OInt s) zs m /\ Forall zwf m.
Proof.
  induction 1 as [|z zs Wz Wzs IH]; intros s Ws; [exists []; split; constructor|].
  destruct (int_step sortv std_order s z std_order_ok Ws Wz) as (s' & E & Ws' & _).
  destruct (IH s' Ws') as (m & H & Wm). exists (s' :: m). split; [|by constructor].
  eapply op_stream_cons; [apply std_order_ok|exact Wz|done|exact E|done].
Qed.
Lemma diff_stream_ex zs : Forall zwf zs -> forall s, zwf s -> exists m, op_stream (ODiff s) zs m /\ Forall zwf m.
Proof.
  induction 1 as [|z zs Wz Wzs IH]; intros s Ws; [exists []; split; constructor|].
  destruct (diff_step sortv std_order s z std_order_ok Ws Wz) as (y & E & Wy & _).
  destruct (IH z Wz) as (m & H & Wm). exists (y :: m). split; [|by constructor].
  eapply op_stream_cons; [apply std_order_ok|exact Wz|done|exact E|done].
Qed.
Lemma id_elim_pair l1 l2 cs zs outs : Forall zwf zs ->
  chain_stream (CNode new_integrator l1 :: CNode new_differentiator l2 :: cs) zs outs <-> chain_stream cs zs outs.
Proof.
  intros Wz. simpl. split.
  - intros (m1 & H1 & m2 & H2 & H3). eapply chain_stream_eq_l; [exact H3|]. apply zeq_list_sym.
    eapply id_stream; [..|exact H1|exact H2]; auto using wf_empty. done.
  - intros H. destruct (int_stream_ex zs Wz zempty wf_empty) as (m1 & H1 & W1).
    destruct (diff_stream_ex m1 W1 zempty wf_empty) as (m2 & H2 & W2).
    exists m1. split; [done|]. exists m2. split; [done|]. eapply chain_stream_eq_l; [exact H|].
    eapply id_stream; [..|exact H1|exact H2]; auto using wf_empty. done.
Qed.

Lemma op_fresh_wf p : op_fresh p -> op_wf p.
Proof. destruct p; simpl; try done; intros ->; apply wf_empty. Qed.

Lemma id_elim_sound cs : Forall op_fresh (map cn_op cs) -> forall zs outs, Forall zwf zs ->
  chain_stream (id_elim cs) zs outs <-> chain_stream cs zs outs.
Proof.
  remember (length cs) as n eqn:En. revert cs En. induction (lt_wf n) as [n _ IH]. intros cs -> Hf zs outs Wz.
  destruct cs as [|c1 [|c2 l]]; [done|done|].
  assert (Ho : chain_stream (c1 :: id_elim (c2 :: l)) zs outs <-> chain_stream (c1 :: c2 :: l) zs outs).
  { apply Forall_cons in Hf as [Hf1 Hf]. simpl in Hf1.
    split; intros (m & H1 & H2); exists m; (split; [done|]);
      pose proof (IH (length (c2 :: l)) ltac:(simpl; lia) (c2 :: l) eq_refl Hf m outs
        ltac:(eapply op_stream_wf; eauto using op_fresh_wf)) as HI; [by apply (proj1 HI)|by apply (proj2 HI)]. }
  cbn [id_elim]. destruct (is_int (cn_op c1) && is_diff (cn_op c2)) eqn:E; [|exact Ho].
  apply andb_prop in E as [E1 E2]. destruct c1 as [p1 l1], c2 as [p2 l2]. simpl in *.
  destruct p1; try done. destruct p2; try done.
  apply Forall_cons in Hf as [Hf1 Hf]. apply Forall_cons in Hf as [Hf2 Hf]. simpl in Hf1, Hf2. subst.
  pose proof (id_elim_pair l1 l2 l zs outs Wz) as HP. unfold new_integrator, new_differentiator in HP.
  simpl in HP. rewrite HP. apply (IH (length l)); auto; simpl; lia.
Qed.

(** ** Distinct *)
Lemma distinct_stream zs ys : op_stream ODistinct zs ys ->
  Forall2 (fun z y => zwf y /\ forall k, zcount y k = if 0 <? zcount z k then 1 else 0) zs ys.
Proof.
  intros H. apply op_stream_stateless in H; [|done].
  induction H as [|z y zs ys (o & z' & Ho & W & E & P) F IH]; constructor; auto. simpl in P.
  destruct (zdistinct_spec o z') as (y0 & E0 & Wy0 & M0); auto. assert (y0 = y) as -> by congruence.
  split; [done|]. intros k. by rewrite M0, (E k).
Qed.
Lemma distinct_stream_ex zs : Forall zwf zs -> exists ys, op_stream ODistinct zs ys /\ Forall zwf ys.
Proof.
  induction 1 as [|z zs Wz Wzs (ys & H & W)]; [exists []; split; constructor|].
  destruct (zdistinct_spec std_order z std_order_ok Wz) as (y & E & Wy & _).
  exists (y :: ys). split; [|by constructor].
  eapply op_stream_cons; [apply std_order_ok|exact Wz|done| |exact H]. simpl. by rewrite E.
Qed.
Lemma distinct_streams_eq zs m m1 m2 : op_stream ODistinct zs m -> op_stream ODistinct zs m1 -> op_stream ODistinct m1 m2 ->
  Forall2 zeq m m2.
Proof.
  intros H0 H1 H2. apply distinct_stream in H0, H1, H2. revert m m2 H0 H2.
  induction H1 as [|z y zs m1 [Wy My] F IH]; intros m m2 H0 H2.
  - inversion H0; subst. inversion H2; subst. constructor.
  - inversion H0 as [|? y0 ? m0 [W0 M0] F0]; subst. inversion H2 as [|? y2 ? m2' [W2 M2] F2]; subst. constructor; [|auto].
    intros k. rewrite M0, M2, My. by destruct (0 <? zcount z k).
Qed.
Lemma distinct_pair l1 l2 cs zs outs : Forall zwf zs ->
  chain_stream (CNode ODistinct l1 :: CNode ODistinct l2 :: cs) zs outs <-> chain_stream (CNode ODistinct l2 :: cs) zs outs.
Proof.
  intros Wz. simpl. destruct (distinct_stream_ex zs Wz) as (m0 & H0 & W0). split.
  - intros (m1 & H1 & m2 & H2 & H3). exists m0. split; [done|]. eapply chain_stream_eq_l; [exact H3|].
    apply zeq_list_sym. by eapply distinct_streams_eq.
  - intros (m & H & H'). destruct (distinct_stream_ex m0 W0) as (m2 & H2 & W2).
    exists m0. split; [done|]. exists m2. split; [done|]. eapply chain_stream_eq_l; [exact H'|].
    eapply distinct_streams_eq; [exact H|exact H0|exact H2].
Qed.
Lemma distinct_opt_sound cs : Forall op_wf (map cn_op cs) -> forall zs outs, Forall zwf zs ->
  chain_stream (distinct_opt cs) zs outs <-> chain_stream cs zs outs.
Proof.
  remember (length cs) as n eqn:En. revert cs En. induction (lt_wf n) as [n _ IH]. intros cs -> Hf zs outs Wz.
  destruct cs as [|c1 [|c2 l]]; [done|done|].
  apply Forall_cons in Hf as [Hf1 Hf].
  assert (Ho : chain_stream (c1 :: distinct_opt (c2 :: l)) zs outs <-> chain_stream (c1 :: c2 :: l) zs outs).
  { split; intros (m & H1 & H2); exists m; (split; [done|]);
      pose proof (IH (length (c2 :: l)) ltac:(simpl; lia) (c2 :: l) eq_refl Hf m outs
        ltac:(eapply op_stream_wf; eauto)) as HI; [by apply (proj1 HI)|by apply (proj2 HI)]. }
  cbn [distinct_opt]. destruct (is_distinct (cn_op c1) && is_distinct (cn_op c2)) eqn:E; [|exact Ho].
  apply andb_prop in E as [E1 E2]. destruct c1 as [p1 l1], c2 as [p2 l2]. simpl in E1, E2.
  destruct p1; try done. destruct p2; try done. rewrite distinct_pair by done.
  apply Forall_cons in Hf as [_ Hf].
  split; intros (m & H1 & H2); exists m; (split; [done|]);
      pose proof (IH (length l) ltac:(simpl; lia) l eq_refl Hf m outs
        ltac:(eapply op_stream_wf; eauto)) as HI; [by apply (proj1 HI)|by apply (proj2 HI)].
Qed.

(** ** Fusion *)
Definition simple (p : op) : bool := match p with OProject _ | OSelect _ => true | _ => false end.

Lemma fused_split p l cs zs outs : stateless p -> evs_ok p -> Forall stateless (expand p) -> Forall op_wf (expand p) -> Forall zwf zs ->
  chain_stream (CNode p l :: cs) zs outs -> chain_stream (user_chain (expand p) ++ cs) zs outs.
Proof.
  intros Sp Hok He Hwf Wz (m & H1 & H2). simpl in H1. apply chain_stream_app.
  - unfold user_chain. by rewrite map_map, map_id.
  - done.
  - exists m. split; [|done]. apply chain_stream_stateless; [done|]. apply op_stream_stateless in H1; [|done].
    clear H2 Wz. induction H1 as [|z y zs ys (o & z' & Ho & W & E & P) F IH]; constructor; auto.
    eapply scratch_eq_l; [|symmetry; exact E]. eapply expand_scratch; eauto. by destruct p.
Qed.

Lemma op_det_linear f ev p : (forall o z, (process o p z).2 = f o z) -> linear_ext f ev -> ev_ok ev -> op_det p.
Proof.
  intros Ef L Hok o1 o2 a b Ho1 Ho2 Wa Wb E. rewrite !Ef. by apply (linear_order f ev).
Qed.
Lemma op_det_simple p : simple p -> evs_ok p -> op_det p.
Proof.
  destruct p; try done; intros _ [Hok _].
  - by apply (op_det_linear (fun o => project o ev) ev); [|apply project_linear|].
  - by apply (op_det_linear (fun o => select o ev) ev); [|apply select_linear|].
Qed.
Lemma op_det_distinct : op_det ODistinct.
Proof.
  intros o1 o2 a b Ho1 Ho2 Wa Wb E. simpl.
  destruct (zdistinct_spec o1 a) as (z1 & -> & _ & M1); auto.
  destruct (zdistinct_spec o2 b) as (z2 & -> & _ & M2); auto. intros k. by rewrite M1, M2, (E k).
Qed.
Lemma op_det_unwind ex tr : ev_ok (unwind_ev ex tr) -> op_det (OUnwind ex tr).
Proof. by apply (op_det_linear (fun o => unwind o ex tr) (unwind_ev ex tr)); [|apply unwind_linear]. Qed.
Lemma scratch_det ps : Forall op_det ps -> Forall op_wf ps -> forall a a' c c', zeq a a' -> scratch ps a c -> scratch ps a' c' -> zeq c c'.
Proof.
  induction 1 as [|p ps Dp Dps IH]; intros Wp a a' c c' E H H'; inversion H; subst; inversion H'; subst.
  - etrans; [symmetry; eassumption|]. etrans; [exact E|done].
  - apply Forall_cons in Wp as [Wp Wps].
    match goal with H1 : (process ?o1 p ?x1).2 = Some ?y1, H2 : (process ?o2 p ?x2).2 = Some ?y2 |- _ =>
      assert (Hd : res_eq (process o1 p x1).2 (process o2 p x2).2);
        [apply Dp; auto; etrans; [symmetry; eassumption|]; etrans; [exact E|done]|rewrite H1, H2 in Hd] end.
    eapply IH; eauto.
Qed.
Lemma simple_expand p : simple p -> expand p = [p].
Proof. by destruct p. Qed.

(** A fused operator whose user code is total never fails. *)
Lemma good_total (ev : evaluator) d : ev_total ev -> ev_keyed ev -> is_Some (key d) -> ev_good ev d.
Proof. intros T K Hk. destruct (T d Hk) as [l El]. exists l. split; [done|]. eauto. Qed.
Lemma proj_chain_total pes d : Forall (fun ev => ev_ok ev /\ ev_keyed ev) pes ->
  Forall (fun ev => ev_total ev /\ ev_single ev) pes -> is_Some (key d) ->
  exists d', proj_chain pes d = Some d' /\ is_Some (key d').
Proof.
  revert d. induction pes as [|pe pes IH]; intros d Ho Ht Hk; simpl; [eauto|].
  apply Forall_cons in Ho as [[_ K] Ho]. apply Forall_cons in Ht as [[T S] Ht].
  destruct (T d Hk) as [l El]. rewrite El. simpl. pose proof (S d l El) as Hl.
  destruct l as [|d1 [|]]; try done. apply IH; auto. eapply K; eauto. by left.
Qed.
Lemma mapM_total {A B} (f : A -> option B) (P : B -> Prop) l :
  (forall x, In x l -> exists y, f x = Some y /\ P y) -> exists ys, mapM f l = Some ys /\ Forall P ys.
Proof.
  induction l as [|x l IH]; intros H; simpl; [exists []; auto|].
  destruct (H x) as (y & -> & Py); [by left|]. destruct IH as (ys & -> & Pys); [intros; apply H; by right|].
  simpl. eexists; eauto.
Qed.
Lemma fused_total p o z : negb (simple p) -> (match p with OProjSel _ _ | OSelProjs _ _ => True | _ => False end) ->
  evs_ok p -> evs_total p -> order_ok o -> zwf z -> is_Some (process o p z).2.
Proof.
  intros _ Hp Hok Ht Ho W. destruct p as [| | | | | | | |pe se|se pes]; try done; simpl in *.
  - destruct Hok as [[Hp1 Hpk] [Hs Hsk]], Ht as [[Tp Sp] Ts].
    apply (proj_then_sel_linear pe se o z Ho W). intros k d Hd. assert (Hk : key d = Some k) by by eapply (wf_key _ W).
    destruct (Tp d) as [ds Ed]; [eauto|]. unfold ev_good, pts_ev. rewrite Ed. simpl.
    destruct (mapM_total se (fun l => forall d', In d' l -> is_Some (key d')) ds) as (fss & -> & Hf).
    { intros x Hx. destruct (Ts x) as [l El]; [eapply Hpk; eauto|]. exists l. split; [done|]. eauto. }
    simpl. eexists; split; [done|]. intros d' Hin. apply in_concat in Hin as (l & Hl & Hin).
    rewrite List.Forall_forall in Hf. eauto.
  - destruct Hok as [Hs Hpes], Ht as [Ts Tpes].
    apply (sel_then_projs_linear se pes o z Ho W). intros k d Hd. assert (Hk : key d = Some k) by by eapply (wf_key _ W).
    unfold ev_good, stp_ev.
    assert (exists ds, (match se with Some s => s d | None => Some [d] end) = Some ds /\ forall d', In d' ds -> is_Some (key d'))
      as (ds & Eds & Hds).
    { destruct se as [se|].
      - destruct (Ts d) as [ds Ed]; [eauto|]. exists ds. split; [done|]. intros d' Hin. destruct Hs as [_ Hsk]. eapply Hsk; eauto.
      - exists [d]. split; [done|]. intros d' [->|[]]. eauto. }
    rewrite Eds. simpl.
    destruct (mapM_total (proj_chain pes) (fun d' => is_Some (key d')) ds) as (ys & -> & Hys).
    { intros x Hx. apply proj_chain_total; auto. }
    eexists; split; [done|]. intros d' Hin. rewrite List.Forall_forall in Hys. eauto.
Qed.

Lemma fused_join p l cs zs outs : (match p with OProjSel _ _ | OSelProjs _ _ => True | _ => False end) ->
  Forall (fun q => simple q /\ evs_ok q) (expand p) -> evs_ok p -> evs_total p -> Forall zwf zs ->
  chain_stream (user_chain (expand p) ++ cs) zs outs -> chain_stream (CNode p l :: cs) zs outs.
Proof.
  intros Hp He Hok Ht Wz H.
  assert (Sp : stateless p) by by destruct p.
  assert (Ss : Forall stateless (expand p)) by (eapply Forall_impl; [exact He|]; intros [] []; done).
  assert (Ws : Forall op_wf (expand p)) by (eapply Forall_impl; [exact He|]; intros [] []; done).
  assert (Ds : Forall op_det (expand p)) by (eapply Forall_impl; [exact He|]; intros q []; by apply op_det_simple).
  apply chain_stream_app in H as (m & H1 & H2); [|unfold user_chain; by rewrite map_map, map_id|done].
  apply chain_stream_stateless in H1; [|done].
  assert (exists m', op_stream p zs m' /\ Forall2 zeq m m') as (m' & Hm & E).
  { clear H2. induction H1 as [|z y zs ys H F IH]; [exists []; split; constructor|].
    apply Forall_cons in Wz as [Wz Wzs]. destruct (IH Wzs) as (m' & Hm & E).
    destruct (fused_total p std_order z) as [y' Ey]; auto using std_order_ok; [by destruct p|].
    exists (y' :: m'). split.
    - eapply op_stream_cons; [apply std_order_ok|exact Wz|done| |exact Hm].
      rewrite (surjective_pairing (process std_order p z)). rewrite stateless_step, Ey by done. done.
    - constructor; [|done]. eapply scratch_det; [exact Ds|exact Ws|reflexivity|exact H|].
      eapply expand_scratch; [exact Hok|by destruct p|apply std_order_ok|done|exact Ey]. }
  exists m'. split; [done|]. by eapply chain_stream_eq_l.
Qed.

Lemma span_projs_spec cs : forall evs r, span_projs cs = (evs, r) ->
  map cn_op cs = map OProject evs ++ map cn_op r /\ length cs = (length evs + length r)%nat
  /\ match r with c :: _ => is_proj (cn_op c) = false | [] => True end.
Proof.
  induction cs as [|c cs IH]; simpl; intros evs r E; [by injection E as <- <-|].
  destruct (cn_op c) eqn:Ec; try (injection E as <- <-; simpl; rewrite Ec; done).
  destruct (span_projs cs) as [evs' r'] eqn:Es. injection E as <- <-.
  destruct (IH evs' r' eq_refl) as (E1 & E2 & E3). simpl. rewrite E1, E2. done.
Qed.

(** Context: replacing the tail of a chain. *)
Lemma chain_stream_tail c cs cs' zs outs : op_wf (cn_op c) ->
  (forall m, Forall zwf m -> chain_stream cs m outs -> chain_stream cs' m outs) ->
  chain_stream (c :: cs) zs outs -> chain_stream (c :: cs') zs outs.
Proof. intros Wc H (m & H1 & H2). exists m. split; [done|]. apply H; [by eapply op_stream_wf|done]. Qed.


Lemma expand_simple p : (match p with OProjSel _ _ | OSelProjs _ _ => True | _ => False end) ->
  Forall (fun q => simple q = true) (expand p).
Proof.
  assert (Hp : forall pes, Forall (fun q => simple q = true) (map OProject pes)) by (induction pes; simpl; constructor; done).
  destruct p as [| | | | | | | |pe se|[se|] pes]; try done; intros _; simpl; [by repeat constructor|by constructor|done].
Qed.
Lemma expand_stateless p : (match p with OProjSel _ _ | OSelProjs _ _ => True | _ => False end) -> Forall stateless (expand p).
Proof. intros H. eapply Forall_impl; [by apply expand_simple|]. by intros []. Qed.
Lemma head_split p l cs' c cs zs outs :
  (match p with OProjSel _ _ | OSelProjs _ _ => True | _ => False end) -> evs_ok p ->
  map cn_op (c :: cs) = expand p ++ map cn_op cs' ->
  Forall op_wf (map cn_op (c :: cs)) -> Forall zwf zs ->
  chain_stream (CNode p l :: cs') zs outs -> chain_stream (c :: cs) zs outs.
Proof.
  intros Hp Hok E Wc Wz H. eapply chain_stream_ops; [|eapply fused_split; [..|exact H]]; auto.
  - rewrite map_app. unfold user_chain. by rewrite map_map, map_id.
  - by destruct p.
  - by apply expand_stateless.
  - rewrite E in Wc. by apply Forall_app in Wc as [? _].
Qed.
Lemma head_join p l cs' c cs zs outs :
  (match p with OProjSel _ _ | OSelProjs _ _ => True | _ => False end) -> evs_ok p -> evs_total p ->
  map cn_op (c :: cs) = expand p ++ map cn_op cs' ->
  Forall evs_ok (map cn_op (c :: cs)) -> Forall zwf zs ->
  chain_stream (c :: cs) zs outs -> chain_stream (CNode p l :: cs') zs outs.
Proof.
  intros Hp Hok Ht E Hoks Wz H. eapply fused_join; [done| |done|done|done|].
  - rewrite E in Hoks. apply Forall_app in Hoks as [Hoks _].
    assert (Hs : Forall (fun q => simple q = true) (expand p)).
    { by apply expand_simple. }
    rewrite List.Forall_forall in *. intros q Hq. split; [|auto]. by rewrite Hs.
  - eapply chain_stream_ops; [|exact H]. rewrite map_app, E. unfold user_chain. by rewrite map_map, map_id.
Qed.

Lemma Forall_projs (P : op -> Prop) evs : Forall P (map OProject evs) <-> Forall (fun ev => P (OProject ev)) evs.
Proof. by rewrite Forall_map. Qed.

Lemma fuse_sel_projs_sound n : forall cs zs outs, (length cs <= n)%nat -> Forall op_wf (map cn_op cs) -> Forall evs_ok (map cn_op cs) ->
  Forall zwf zs -> chain_stream (fuse_sel_projs n cs) zs outs -> chain_stream cs zs outs.
Proof.
  induction n as [|n IH]; intros cs zs outs Hn Wc Hok Wz H; [done|].
  destruct cs as [|c l]; [done|]. simpl in Hn.
  assert (Hdef : chain_stream (c :: fuse_sel_projs n l) zs outs -> chain_stream (c :: l) zs outs).
  { apply Forall_cons in Wc as [Wc Wcs]. apply Forall_cons in Hok as [_ Hok].
    apply chain_stream_tail; [done|]. intros m Wm. apply IH; auto. lia. }
  simpl in H. destruct (cn_op c) eqn:Ec; try (apply Hdef; exact H).
  - destruct (span_projs l) as [evs r] eqn:Es. destruct (span_projs_spec l evs r Es) as (E1 & E2 & _).
    destruct evs as [|e0 evs]; [exact (Hdef H)|]. simpl in E2.
    assert (E : map cn_op (c :: l) = expand (OSelProjs None (ev :: e0 :: evs)) ++ map cn_op r) by (simpl; rewrite Ec, E1; done).
    rewrite E in Hok. apply Forall_app in Hok as [Hok1 Hok2].
    pose proof Wc as Wc'. rewrite E in Wc'. apply Forall_app in Wc' as [_ Wc'].
    eapply head_split with (p := OSelProjs None (ev :: e0 :: evs)) (cs' := r); [done| |exact E|exact Wc|exact Wz|].
    + simpl. split; [done|]. rewrite <- (Forall_projs evs_ok (ev :: e0 :: evs)). exact Hok1.
    + eapply chain_stream_tail; [done| |exact H]. intros m Wm. apply IH; auto. lia.
  - destruct (span_projs l) as [evs r] eqn:Es. destruct (span_projs_spec l evs r Es) as (E1 & E2 & _).
    destruct evs as [|e0 evs]; [exact (Hdef H)|]. simpl in E2.
    assert (E : map cn_op (c :: l) = expand (OSelProjs (Some ev) (e0 :: evs)) ++ map cn_op r) by (simpl; rewrite Ec, E1; done).
    rewrite E in Hok. apply Forall_app in Hok as [Hok1 Hok2].
    pose proof Wc as Wc'. rewrite E in Wc'. apply Forall_app in Wc' as [_ Wc'].
    eapply head_split with (p := OSelProjs (Some ev) (e0 :: evs)) (cs' := r); [done| |exact E|exact Wc|exact Wz|].
    + cbn [expand] in Hok1. apply Forall_cons in Hok1 as [Hs Hps]. split; [done|]. rewrite <- (Forall_projs evs_ok (e0 :: evs)). exact Hps.
    + eapply chain_stream_tail; [done| |exact H]. intros m Wm. apply IH; auto. lia.
Qed.

Lemma fuse_sel_projs_complete n : forall cs zs outs, (length cs <= n)%nat -> Forall op_wf (map cn_op cs) -> Forall evs_ok (map cn_op cs) ->
  Forall evs_total (map cn_op cs) -> Forall zwf zs -> chain_stream cs zs outs -> chain_stream (fuse_sel_projs n cs) zs outs.
Proof.
  induction n as [|n IH]; intros cs zs outs Hn Wc Hok Ht Wz H; [done|].
  destruct cs as [|c l]; [done|]. simpl in Hn.
  assert (Hdef : chain_stream (c :: fuse_sel_projs n l) zs outs).
  { apply Forall_cons in Wc as [Wc Wcs]. apply Forall_cons in Hok as [_ Hok]. apply Forall_cons in Ht as [_ Ht].
    eapply chain_stream_tail; [done| |exact H]. intros m Wm. apply IH; auto. lia. }
  simpl. destruct (cn_op c) eqn:Ec; try exact Hdef.
  - destruct (span_projs l) as [evs r] eqn:Es. destruct (span_projs_spec l evs r Es) as (E1 & E2 & _).
    destruct evs as [|e0 evs]; [exact Hdef|]. simpl in E2.
    assert (E : map cn_op (c :: l) = expand (OSelProjs None (ev :: e0 :: evs)) ++ map cn_op r) by (simpl; rewrite Ec, E1; done).
    pose proof Hok as Hok'. rewrite E in Hok'. apply Forall_app in Hok' as [Hok1 Hok2].
    rewrite E in Ht. apply Forall_app in Ht as [Ht1 Ht2].
    pose proof Wc as Wc'. rewrite E in Wc'. apply Forall_app in Wc' as [_ Wc'].
    apply (chain_stream_tail _ r); [done| |].
    + intros m Wm. apply IH; auto. lia.
    + eapply head_join; [done| | |exact E|exact Hok|exact Wz|exact H].
      * simpl. split; [done|]. rewrite <- (Forall_projs evs_ok (ev :: e0 :: evs)). exact Hok1.
      * simpl. split; [done|]. rewrite <- (Forall_projs evs_total (ev :: e0 :: evs)). exact Ht1.
  - destruct (span_projs l) as [evs r] eqn:Es. destruct (span_projs_spec l evs r Es) as (E1 & E2 & _).
    destruct evs as [|e0 evs]; [exact Hdef|]. simpl in E2.
    assert (E : map cn_op (c :: l) = expand (OSelProjs (Some ev) (e0 :: evs)) ++ map cn_op r) by (simpl; rewrite Ec, E1; done).
    pose proof Hok as Hok'. rewrite E in Hok'. apply Forall_app in Hok' as [Hok1 Hok2].
    rewrite E in Ht. apply Forall_app in Ht as [Ht1 Ht2].
    pose proof Wc as Wc'. rewrite E in Wc'. apply Forall_app in Wc' as [_ Wc'].
    apply (chain_stream_tail _ r); [done| |].
    + intros m Wm. apply IH; auto. lia.
    + eapply head_join; [done| | |exact E|exact Hok|exact Wz|exact H].
      * cbn [expand] in Hok1. apply Forall_cons in Hok1 as [Hs Hps]. split; [done|]. rewrite <- (Forall_projs evs_ok (e0 :: evs)). exact Hps.
      * cbn [expand] in Ht1. apply Forall_cons in Ht1 as [Hs Hps]. split; [done|]. rewrite <- (Forall_projs evs_total (e0 :: evs)). exact Hps.
Qed.

Lemma fuse_proj_sel_eq c1 c2 l : fuse_proj_sel (c1 :: c2 :: l) =
  match cn_op c1, cn_op c2 with
  | OProject pe, OSelect se => CNode (OProjSel pe se) (cn_lifted c2) :: fuse_proj_sel l
  | _, _ => c1 :: fuse_proj_sel (c2 :: l)
  end.
Proof. done. Qed.
Lemma fuse_proj_sel_sound cs : forall zs outs, Forall op_wf (map cn_op cs) -> Forall evs_ok (map cn_op cs) ->
  Forall zwf zs -> chain_stream (fuse_proj_sel cs) zs outs -> chain_stream cs zs outs.
Proof.
  remember (length cs) as n eqn:En. revert cs En. induction (lt_wf n) as [n _ IH]. intros cs -> zs outs Wc Hok Wz H.
  destruct cs as [|c1 [|c2 l]]; [done|done|].
  assert (Hdef : chain_stream (c1 :: fuse_proj_sel (c2 :: l)) zs outs -> chain_stream (c1 :: c2 :: l) zs outs).
  { apply Forall_cons in Wc as [Wc Wcs]. apply Forall_cons in Hok as [_ Hok].
    apply chain_stream_tail; [done|]. intros m Wm. apply (IH (length (c2 :: l))); auto. }
  rewrite fuse_proj_sel_eq in H.
  destruct (cn_op c1) as [pe| | | | | | | | |] eqn:E1; try exact (Hdef H).
  destruct (cn_op c2) as [|se| | | | | | | |] eqn:E2; try exact (Hdef H).
  eapply (head_split (OProjSel pe se) (cn_lifted c2) l); [done| |by simpl; rewrite E1, E2|exact Wc|exact Wz|].
  - simpl in Hok. rewrite E1, E2 in Hok. apply Forall_cons in Hok as [? Hok]. apply Forall_cons in Hok as [? _]. done.
  - apply Forall_cons in Wc as [_ Wc]. apply Forall_cons in Wc as [_ Wc].
    apply Forall_cons in Hok as [_ Hok]. apply Forall_cons in Hok as [_ Hok].
    eapply chain_stream_tail; [done| |exact H]. intros m Wm. apply (IH (length l)); auto. simpl; lia.
Qed.
Lemma fuse_proj_sel_complete cs : forall zs outs, Forall op_wf (map cn_op cs) -> Forall evs_ok (map cn_op cs) ->
  Forall evs_total (map cn_op cs) -> Forall zwf zs -> chain_stream cs zs outs -> chain_stream (fuse_proj_sel cs) zs outs.
Proof.
  remember (length cs) as n eqn:En. revert cs En. induction (lt_wf n) as [n _ IH]. intros cs -> zs outs Wc Hok Ht Wz H.
  destruct cs as [|c1 [|c2 l]]; [done|done|].
  assert (Hdef : chain_stream (c1 :: fuse_proj_sel (c2 :: l)) zs outs).
  { apply Forall_cons in Wc as [Wc Wcs]. apply Forall_cons in Hok as [_ Hok]. apply Forall_cons in Ht as [_ Ht].
    eapply chain_stream_tail; [done| |exact H]. intros m Wm. apply (IH (length (c2 :: l))); auto. }
  rewrite fuse_proj_sel_eq.
  destruct (cn_op c1) as [pe| | | | | | | | |] eqn:E1; try exact Hdef.
  destruct (cn_op c2) as [|se| | | | | | | |] eqn:E2; try exact Hdef.
  pose proof Hok as Hok'. pose proof Ht as Ht'. simpl in Hok', Ht'. rewrite E1, E2 in Hok', Ht'.
  apply Forall_cons in Hok' as [Hp Hok']. apply Forall_cons in Hok' as [Hs Hok'].
  apply Forall_cons in Ht' as [Tp Ht']. apply Forall_cons in Ht' as [Ts Ht'].
  apply Forall_cons in Wc as [_ Wc]. apply Forall_cons in Wc as [_ Wc].
  apply (chain_stream_tail _ l); [done| |].
  - intros m Wm. apply (IH (length l)); auto. simpl; lia.
  - eapply head_join; [done| | | |exact Hok|exact Wz|exact H]; try done. by simpl; rewrite E1, E2.
Qed.

(** ** Deterministic chains: every run realises every behaviour *)
Inductive chain_step : list cnode -> zset -> list cnode -> zset -> Prop :=
  | cstep_nil z y : zwf y -> zeq z y -> chain_step [] z [] y
  | cstep_cons o c cs z z' p1 m cs1 y :
      order_ok o -> zwf z' -> zeq z z' -> process o (cn_op c) z' = (p1, Some m) ->
      chain_step cs m cs1 y -> chain_step (c :: cs) z (CNode p1 (cn_lifted c) :: cs1) y.
Lemma chain_stream_uncons cs : forall z zs outs, chain_stream cs (z :: zs) outs ->
  exists y ys cs1, outs = y :: ys /\ chain_step cs z cs1 y /\ chain_stream cs1 zs ys.
Proof.
  induction cs as [|c cs IH]; simpl; intros z zs outs H.
  - inversion H as [|? y ? ys [W E] F]; subst. exists y, ys, []. split_and!; try done. by constructor.
  - destruct H as (mid & H1 & H2).
    inversion H1 as [|o p z0 z' p1 m zs0 mid' Ho W E P H1' Ep]; subst.
    destruct (IH m mid' outs H2) as (y & ys & cs1 & -> & Hs & Hr).
    exists y, ys, (CNode p1 (cn_lifted c) :: cs1). split_and!; [done| |simpl; eauto].
    eapply cstep_cons; eauto.
Qed.

(** Same operator, states equal as Z-sets; stateless ones are deterministic. *)
Definition op_sim (p q : op) : Prop :=
  match p, q with
  | OInt s, OInt t | ODiff s, ODiff t | ODelay s, ODelay t => zwf s /\ zwf t /\ zeq s t
  | OInt _, _ | ODiff _, _ | ODelay _, _ => False
  | _, _ => p = q /\ op_det p
  end.
Lemma op_sim_step p q o1 o2 a b p1 y : op_sim p q -> order_ok o1 -> order_ok o2 -> zwf a -> zwf b -> zeq a b ->
  process o1 p a = (p1, Some y) -> exists q1 y', process o2 q b = (q1, Some y') /\ zeq y y' /\ op_sim p1 q1 /\ zwf y'.
Proof.
  intros S Ho1 Ho2 Wa Wb E P.
  assert (Hst : stateless p -> p = q /\ op_det p -> exists q1 y', process o2 q b = (q1, Some y') /\ zeq y y' /\ op_sim p1 q1 /\ zwf y').
  { intros Sp [<- D]. pose proof (D o1 o2 a b Ho1 Ho2 Wa Wb E) as R. rewrite P in R. simpl in R.
    destruct (process o2 p b) as [q1 [y'|]] eqn:P2; [|done]. simpl in R.
    pose proof (stateless_step sortv o1 p a Sp) as E1. rewrite P in E1. simpl in E1. subst p1.
    pose proof (stateless_step sortv o2 p b Sp) as E2. rewrite P2 in E2. simpl in E2. subst q1.
    exists p, y'. split_and!; try done.
    - eapply (process_wf sortv o2 p b); eauto. by destruct p. }
  destruct p; try (apply Hst; [done|exact S]); destruct q; try done; destruct S as (Ws & Wt & Es).
  - destruct (int_step sortv o1 state a) as (s' & E1 & Ws' & Ms); auto. rewrite E1 in P. injection P as <- <-.
    destruct (int_step sortv o2 state0 b) as (t' & E2 & Wt' & Mt); auto. rewrite E2.
    assert (zeq s' t') by (intros k; rewrite Ms, Mt, (Es k), (E k); done).
    exists (OInt t'), t'. done.
  - destruct (diff_step sortv o1 prev a) as (s' & E1 & Ws' & Ms); auto. rewrite E1 in P. injection P as <- <-.
    destruct (diff_step sortv o2 prev0 b) as (t' & E2 & Wt' & Mt); auto. rewrite E2.
    assert (zeq s' t') by (intros k; rewrite Ms, Mt, (Es k), (E k); done).
    exists (ODiff b), t'. done.
  - simpl in P. injection P as <- <-. simpl. rewrite !deep_copy_wf by done.
    exists (ODelay b), buffer0. split; [done|]. split; [exact Es|]. split; [split_and!; done|done].
Qed.
Definition chain_sim (cs cs' : list cnode) : Prop := Forall2 (fun c c' => op_sim (cn_op c) (cn_op c')) cs cs'.
Lemma chain_sim_step cs z cs1 y : chain_step cs z cs1 y -> forall cs' z' o n, chain_sim cs cs' -> order_ok o ->
  zwf z' -> zeq z z' -> exists cs1' y', chain_process o n cs' z' = (cs1', Some y') /\ zeq y y' /\ zwf y' /\ chain_sim cs1 cs1'.
Proof.
  induction 1 as [z y W E|o c cs z z0 p1 m cs1 y Ho W E P H IH]; intros cs' z' o2 n S Ho2 Wz' Ez.
  - inversion S; subst. exists [], z'. simpl. split; [done|]. split; [etrans; [symmetry; exact E|done]|]. split; [done|constructor].
  - inversion S as [|? c' ? cs'' S1 S2]; subst. simpl.
    destruct (op_sim_step (cn_op c) (cn_op c') o (osub o2 n) z0 z' p1 m) as (q1 & m' & P' & Em & Sq & Wm');
      auto using osub_ok; [etrans; [symmetry; exact E|done]|].
    rewrite P'. destruct (IH cs'' m' o2 (Datatypes.S n) S2 Ho2 Wm' Em) as (cs1' & y' & -> & Ey & Wy & Sc).
    exists (CNode q1 (cn_lifted c') :: cs1'), y'. split_and!; try done. by constructor.
Qed.
Lemma chain_stream_run zs : forall cs cs' outs o n, chain_stream cs zs outs -> chain_sim cs cs' -> order_ok o -> Forall zwf zs ->
  exists outs', (chain_run o n cs' zs).2 = map Some outs' /\ Forall2 zeq outs outs' /\ Forall zwf outs'.
Proof.
  induction zs as [|z zs IH]; intros cs cs' outs o n H S Ho Wz.
  - exists []. split; [done|]. split; [|done]. assert (length outs = 0)%nat as E0; [|by destruct outs].
    clear S. revert outs H. induction cs as [|c cs IHc]; simpl; intros outs H; [by inversion H|].
    destruct H as (m & H1 & H2). inversion H1; subst. auto.
  - apply Forall_cons in Wz as [Wz Wzs].
    destruct (chain_stream_uncons cs z zs outs H) as (y & ys & cs1 & -> & Hs & Hr).
    destruct (chain_sim_step cs z cs1 y Hs cs' z (osub o n) 0%nat) as (cs1' & y' & E & Ey & Wy & S1); auto using osub_ok; [done|].
    simpl. rewrite E. destruct (IH cs1 cs1' ys o (Datatypes.S n) Hr S1 Ho Wzs) as (outs' & Er & Fz & Fw).
    destruct (chain_run o (Datatypes.S n) cs1' zs) as [cs2 rs]. simpl in *. subst rs. exists (y' :: outs').
    split; [done|]. split; constructor; done.
Qed.
Lemma chain_run_stream o n cs zs outs : order_ok o -> Forall op_wf (map cn_op cs) -> Forall zwf zs ->
  (chain_run o n cs zs).2 = map Some outs -> chain_stream cs zs outs.
Proof.
  intros Ho Wc Wz E. eapply chain_steps_stream; [|done|done].
  destruct (chain_run o n cs zs) as [cs' rs] eqn:ER. simpl in E. subst rs. by eapply chain_run_steps.
Qed.
Local Notation node_det := (node_det sortv).
Lemma chain_sim_refl cs : Forall node_det (map cn_op cs) -> chain_sim cs cs.
Proof.
  induction cs as [|c cs IH]; intros H; [constructor|]. apply Forall_cons in H as [H1 H2].
  constructor; [|by apply IH]. destruct (cn_op c); simpl in *; try done; subst; split_and!; auto using wf_empty; done.
Qed.
End chains.
