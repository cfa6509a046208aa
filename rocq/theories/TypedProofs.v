(** Proofs about pipelines whose stages cannot fail on the documents that reach them. *)
From Verif Require Import ZSetModel OpsModel ExecModel ZSetSpec OpsSpec ExecSpec TypedSpec.
From Verif Require Import ZSetProofs ZSetProofs2 OpsProofs StreamProofs JoinProofs ChainProofs ChainProofs2 OptProofs IncrProofs IncrProofs2.

Section typed.
Context {DD : Docs}.
Variable sortv : list val -> list val.
Hypothesis Hsort : forall l, Permutation (sortv l) l.
Hypothesis Hex : forall a b k, key a = Some k -> key b = Some k -> a = b.
Local Notation process := (process sortv).
Local Notation chain_process := (chain_process sortv).
Local Notation exec_process := (exec_process sortv).
Local Notation exec_run := (exec_run sortv).

(** *** Z-sets *)
Lemma doc_count z k d : zwf z -> docs z !! k = Some d -> key d = Some k /\ zcount z k <> 0.
Proof.
  intros W Hd. split; [by eapply wf_key|]. unfold zcount. assert (is_Some (counts z !! k)) as [c Hc].
  { rewrite <-elem_of_dom. rewrite <-(wf_dom _ W). apply elem_of_dom. by exists d. }
  rewrite Hc. simpl. by eapply wf_nz.
Qed.
Lemma count_doc z k : zwf z -> zcount z k <> 0 -> exists d, docs z !! k = Some d /\ key d = Some k.
Proof.
  intros W Hc. unfold zcount in Hc. destruct (counts z !! k) as [c|] eqn:E; [|done].
  assert (is_Some (docs z !! k)) as [d Hd]. { apply elem_of_dom. rewrite (wf_dom _ W). apply elem_of_dom. by exists c. }
  exists d. split; [done|]. by eapply wf_key.
Qed.
Lemma zall_at Q z k d : zwf z -> zall Q z -> key d = Some k -> zcount z k <> 0 -> Q d.
Proof. intros W A Hk Hc. destruct (count_doc z k W Hc) as (d' & Hd & Hk'). rewrite (Hex d d' k Hk Hk'). by eapply A. Qed.
Lemma zall_fine Q z k d : zwf z -> zall Q z -> docs z !! k = Some d -> fine Q d.
Proof. intros W A Hd. split; [exists k; by eapply wf_key|by eapply A]. Qed.
Lemma zall_by Q a b c : zwf a -> zwf b -> zwf c -> zall Q a -> zall Q b -> (forall k, zcount c k <> 0 -> zcount a k <> 0 \/ zcount b k <> 0) -> zall Q c.
Proof.
  intros Wa Wb Wc A B H k d Hd. destruct (doc_count c k d Wc Hd) as [Hk Hc]. destruct (H k Hc) as [X|X]; [exact (zall_at Q a k d Wa A Hk X)|exact (zall_at Q b k d Wb B Hk X)].
Qed.
Lemma zall_empty Q : zall Q zempty.
Proof. intros k d Hd. change ((∅ : gmap ident doc) !! k = Some d) in Hd. by rewrite lookup_empty in Hd. Qed.
Lemma occ_in k l : occ k l <> 0 -> exists d, In d l /\ key d = Some k.
Proof.
  unfold occ. induction l as [|x l IH]; [done|]. simpl. intros H. case_decide as E; [exists x; split; [by left|done]|].
  destruct IH as (d & Hd & Hk); [lia|]. exists d. split; [by right|done].
Qed.
Lemma lsum_nz {A} (g : A -> Z) l : lsum g l <> 0 -> exists x, In x l /\ g x <> 0.
Proof.
  induction l as [|x l IH]; [done|]. intros Hn. destruct (decide (g x = 0)) as [E0|E0].
  - destruct IH as (y & ? & ?); [change (g x + lsum g l <> 0) in Hn; lia|]. exists y. split; [by right|done].
  - exists x. split; [by left|done].
Qed.

(** *** Operators *)
Lemma linear_on f ev Q Q' o z : linear_ext f ev -> ev_on Q Q' ev -> order_ok o -> zwf z -> zall Q z -> exists y, f o z = Some y /\ zwf y /\ zall Q' y.
Proof.
  intros L T Ho W A. destruct (L o z Ho W) as [[_ L1] L2]. destruct L1 as [y Ey].
  { intros k d Hd. destruct (T d (zall_fine _ _ _ _ W A Hd)) as (l & El & Hl). exists l. split; [done|]. intros d' Hd'. rewrite List.Forall_forall in Hl. by apply Hl. }
  destruct (L2 y Ey) as [Wy Cy]. exists y. split_and!; [done|done|]. intros k d Hd. destruct (doc_count y k d Wy Hd) as [Hk Hc]. rewrite Cy in Hc. unfold zsum in Hc.
  apply lsum_nz in Hc as ([k0 d0] & Hin & Hg). simpl in Hg. assert (occ k (ev_out ev d0) <> 0) as Ho' by lia. apply elem_of_list_In, elem_of_map_to_list in Hin.
  destruct (T d0 (zall_fine _ _ _ _ W A Hin)) as (l & El & Hl). unfold ev_out in Ho'. rewrite El in Ho'. simpl in Ho'. apply occ_in in Ho' as (d' & Hd' & Hk').
  rewrite (Hex d d' k Hk Hk'). rewrite List.Forall_forall in Hl. by apply Hl.
Qed.

Definition from Q (vx : extractor) (v : val) : Prop := exists d', fine Q d' /\ vx d' = Some (Some v).
Definition group_on Q (kx vx : extractor) (g : group_data) : Prop := fine Q (gd_doc g) /\ kx (gd_doc g) = Some (Some (gd_key g)) /\ Forall (from Q vx) (gd_values g).
Lemma remove_first_sub (P : val -> Prop) vs x : Forall P vs -> Forall P (remove_first_match vs x).
Proof. induction 1 as [|v vs H H2 IH]; simpl; [constructor|]. case_decide; [done|by constructor]. Qed.
Lemma remove_n_sub (P : val -> Prop) n : forall vs x, Forall P vs -> Forall P (remove_n n vs x).
Proof. induction n as [|n IH]; intros vs x H; simpl; [done|]. by apply IH, remove_first_sub. Qed.
Lemma upd_sub (P : val -> Prop) vs v m : Forall P vs -> P v -> Forall P (upd_values vs v m).
Proof.
  intros H Hv. unfold upd_values. destruct (0 <? m); [|destruct (m <? 0); [by apply remove_n_sub|done]].
  apply Forall_app. split; [done|]. apply List.Forall_forall. intros y Hy. by apply repeat_spec in Hy as ->.
Qed.
Lemma groups_on Q kx vx es : (forall d, fine Q d -> exists g v, kx d = Some g /\ vx d = Some v /\ forall x, g = Some x -> is_Some (vjson x)) ->
  Forall (fun e => fine Q e.1) es -> forall gs, map_Forall (fun _ g => group_on Q kx vx g) gs ->
  exists gs', gather_groups kx vx gs es = Some gs' /\ map_Forall (fun _ g => group_on Q kx vx g) gs'.
Proof.
  intros T. induction 1 as [|[d m] es Hk Hes IH]; intros gs Hgs; simpl; [eauto|]. simpl in Hk.
  destruct (T d Hk) as (ogk & ov & Ek & Ev & Hj). rewrite Ek. simpl. destruct ogk as [gk|]; [|auto].
  rewrite Ev. simpl. destruct ov as [v|]; [|auto]. destruct (Hj gk eq_refl) as [j Ej]. rewrite Ej. simpl. apply IH.
  apply map_Forall_insert_2; [|done]. destruct (gs !! j) as [g|] eqn:Eg; simpl.
  - destruct (Hgs j g Eg) as (G1 & G2 & G3). split_and!; [done|done|]. simpl. apply upd_sub; [done|by exists d].
  - split_and!; [done|done|]. simpl. apply upd_sub; [by constructor|by exists d].
Qed.
Lemma aggregate_on Q Q' kx vx agg :
  (forall d g vs, fine Q d -> kx d = Some (Some g) -> Forall (from Q vx) vs -> exists r, agg d g vs = Some r /\ fine Q' r) ->
  forall l acc, Forall (fun x => group_on Q kx vx x.2) l -> zwf acc -> zall Q' acc -> exists y, gather_aggregate sortv agg acc l = Some y /\ zwf y /\ zall Q' y.
Proof.
  intros T l. induction l as [|[i g] l IH]; simpl; intros acc H Wa Aa; [eauto|]. apply Forall_cons in H as [(G1 & G2 & G3) H]. cbn [snd] in G1, G2, G3.
  match goal with |- context [agg (gd_doc g) (gd_key g) ?vs] => destruct (T (gd_doc g) (gd_key g) vs) as (r & -> & [[k Hr] Qr]); [done|done| |] end.
  { destruct (gd_values g) as [|v1 [|v2 vs]]; [done|done|]. eapply Permutation_Forall; [symmetry; apply Hsort|done]. }
  simpl. destruct (add_doc acc r 1) as [acc'|] eqn:Ea; [|apply add_doc_success in Ea as [_ Ea]; congruence]. destruct (add_doc_spec acc r 1 acc' Wa Ea) as [Wa' Ca]. simpl. apply IH; [done|done|].
  intros k' d Hd. destruct (doc_count acc' k' d Wa' Hd) as [Hk Hc]. rewrite Ca in Hc. case_decide as E.
  - by rewrite (Hex d r k' Hk E).
  - eapply zall_at; [exact Wa|exact Aa|exact Hk|lia].
Qed.

Fixpoint projs_on (Q : doc -> Prop) (evs : list evaluator) (Q' : doc -> Prop) : Prop :=
  match evs with [] => forall d, Q d -> Q' d | ev :: evs => exists Qm, op_on Q Qm (OProject ev) /\ projs_on Qm evs Q' end.
Definition node_on (Q Q' : doc -> Prop) (p : op) : Prop :=
  match p with
  | OInt s | ODiff s => zwf s /\ zall Q s /\ forall d, Q d -> Q' d
  | OProjSel pe se => exists Qm, op_on Q Qm (OProject pe) /\ op_on Qm Q' (OSelect se)
  | OSelProjs se pes => exists Qm, match se with Some ev => op_on Q Qm (OSelect ev) | None => forall d, Q d -> Qm d end /\ projs_on Qm pes Q'
  | ODistinct | ODelay _ => False
  | p => op_on Q Q' p
  end.
Lemma proj_ev_on Q Q' ev : op_on Q Q' (OProject ev) -> ev_on Q Q' ev.
Proof. intros H d Hd. destruct (H d Hd) as (d' & E & Hd'). exists [d']. split; [done|]. apply List.Forall_cons; [done|apply List.Forall_nil]. Qed.
Lemma mapM_on {A B} (f : A -> option B) (P : A -> Prop) (R : B -> Prop) l : (forall x, P x -> exists y, f x = Some y /\ R y) -> Forall P l -> exists ys, mapM f l = Some ys /\ Forall R ys.
Proof.
  intros H. induction 1 as [|x l Hx _ (ys & E & Hys)]; [exists []; split; [done|apply List.Forall_nil]|]. destruct (H x Hx) as (y & Ey & Hy). exists (y :: ys). cbn. rewrite Ey. cbn.
  cbn in E. rewrite E. split; [done|by apply List.Forall_cons].
Qed.
Lemma proj_chain_on evs : forall Q Q' d, projs_on Q evs Q' -> fine Q d -> exists d', proj_chain evs d = Some d' /\ fine Q' d'.
Proof.
  induction evs as [|ev evs IH]; intros Q Q' d H Hd; [exists d; split; [done|]; destruct Hd; split; [done|by apply H]|].
  destruct H as (Qm & H1 & H2). destruct (H1 d Hd) as (d' & E & Hd'). simpl. rewrite E. simpl. by eapply IH.
Qed.
Lemma process_on Q Q' p o z : node_on Q Q' p -> order_ok o -> zwf z -> zall Q z ->
  exists p' y, process o p z = (p', Some y) /\ zwf y /\ zall Q' y /\ node_on Q Q' p'.
Proof.
  intros T Ho W A. destruct p; simpl in T; try done.
  - destruct (linear_on (fun o => project o ev) ev Q Q' o z) as (y & E & Wy & Ay); [apply project_linear|by apply proj_ev_on|done..|]. simpl. rewrite E. by eexists _, y; split_and!.
  - destruct (linear_on (fun o => select o ev) ev Q Q' o z) as (y & E & Wy & Ay); [apply select_linear|done..|]. simpl. rewrite E. by eexists _, y; split_and!.
  - destruct (linear_on (fun o => unwind o ex tr) (unwind_ev ex tr) Q Q' o z) as (y & E & Wy & Ay); [apply unwind_linear|done..|]. simpl. rewrite E. by eexists _, y; split_and!.
  - destruct T as [T1 T2]. simpl. unfold gather. destruct (entries_ok (osub o 0) z) as (es & E & _); auto using osub_ok. rewrite E. simpl.
    destruct (groups_on Q kx vx es T1) with (gs := (∅ : gmap ident group_data)) as (gs & -> & Hgs).
    { apply List.Forall_forall. intros [d c] Hin. simpl. apply (Permutation_in _ (zents_entries (osub o 0) z es (osub_ok o 0 Ho) W E)) in Hin.
      apply zents_in in Hin as (k & Hd & _); [|done]. by eapply zall_fine. }
    { apply map_Forall_empty. }
    simpl. destruct (aggregate_on Q Q' kx vx agg T2 (o group_data [1%nat] gs) zempty) as (y & -> & Wy & Ay); [|apply wf_empty|apply zall_empty|by eexists _, y; split_and!].
    apply List.Forall_forall. intros [i g] Hin. simpl. apply (Permutation_in _ (Ho group_data [1%nat] gs)) in Hin.
    apply elem_of_list_In, elem_of_map_to_list in Hin. by eapply Hgs.
  - destruct T as (Ws & As & HQ). destruct (int_step sortv o state z) as (s & E & Wy & Cy); [done..|]. eexists _, s. rewrite E.
    assert (HS : zall Q s). { eapply (zall_by Q state z); [done..|]. intros k Hk. rewrite Cy in Hk. lia. }
    split_and!; [done|done|intros k d Hd; by eapply HQ, HS|by split_and!].
  - destruct T as (Ws & As & HQ). destruct (diff_step sortv o prev z) as (y & E & Wy & Cy); [done..|]. eexists _, y. rewrite E.
    assert (HS : zall Q y). { eapply (zall_by Q prev z); [done..|]. intros k Hk. rewrite Cy in Hk. lia. }
    split_and!; [done|done|intros k d Hd; by eapply HQ, HS|by split_and!].
  - destruct T as (Qm & T1 & T2). destruct (linear_on (fun o => proj_then_sel o proj sel) (pts_ev proj sel) Q Q' o z) as (y & E & Wy & Ay); [apply proj_then_sel_linear| |done..|].
    + intros d Hd. destruct (T1 d Hd) as (d' & Ed & Hd'). destruct (T2 d' Hd') as (l & El & Hl). exists l. split; [|done]. unfold pts_ev. rewrite Ed. cbn. rewrite El. cbn. by rewrite app_nil_r.
    + simpl. rewrite E. eexists _, y. split_and!; [done|done|done|]. by exists Qm.
  - destruct T as (Qm & T1 & T2). destruct (linear_on (fun o => sel_then_projs o sel projs) (stp_ev sel projs) Q Q' o z) as (y & E & Wy & Ay); [apply sel_then_projs_linear| |done..|].
    + intros d Hd. assert (exists l, match sel with Some s => s d | None => Some [d] end = Some l /\ Forall (fine Qm) l) as (l & El & Hl).
      { destruct sel as [s|]; [by apply T1|]. exists [d]. split; [done|]. apply List.Forall_cons; [|apply List.Forall_nil]. destruct Hd. split; [done|by apply T1]. }
      unfold stp_ev. rewrite El. cbn. apply (mapM_on _ (fine Qm)); [|done]. intros x Hx. by eapply proj_chain_on.
    + simpl. rewrite E. eexists _, y. split_and!; [done|done|done|]. by exists Qm.
Qed.

(** *** Chains *)
Fixpoint chain_on (Q : doc -> Prop) (cs : list cnode) (Q' : doc -> Prop) : Prop :=
  match cs with [] => forall d, Q d -> Q' d | c :: cs => exists Qm, node_on Q Qm (cn_op c) /\ chain_on Qm cs Q' end.
Lemma chain_process_on cs : forall Q Q' o n z, chain_on Q cs Q' -> order_ok o -> zwf z -> zall Q z ->
  exists cs' y, chain_process o n cs z = (cs', Some y) /\ zwf y /\ zall Q' y /\ chain_on Q cs' Q'.
Proof.
  induction cs as [|c cs IH]; intros Q Q' o n z H Ho W A; simpl.
  - exists [], z. split_and!; [done|done| |done]. intros k d Hd. by eapply H, A.
  - destruct H as (Qm & H1 & H2). destruct (process_on Q Qm (cn_op c) (osub o n) z) as (p' & m & -> & Wm & Am & Hp); [done|by apply osub_ok|done..|].
    destruct (IH Qm Q' o (S n) m H2 Ho Wm Am) as (cs' & y & -> & Wy & Ay & Hc). exists (CNode p' (cn_lifted c) :: cs'), y. split_and!; [done..|]. by exists Qm.
Qed.
Lemma user_on ps : forall Q Q', forallb user_op ps = true -> ops_on Q ps Q' -> chain_on Q (user_chain ps) Q'.
Proof.
  induction ps as [|p ps IH]; intros Q Q' Hu H; [done|]. simpl in Hu. apply andb_prop in Hu as [Hp Hu]. destruct H as (Qm & H1 & H2). exists Qm. split; [|by apply IH].
  simpl. by destruct p.
Qed.
Lemma lift_on cs : forall Q Q', chain_on Q cs Q' -> chain_on Q (lift cs) Q'.
Proof.
  induction cs as [|c cs IH]; intros Q Q' H; [done|]. destruct H as (Qm & H1 & H2). rewrite lift_cons. apply IH in H2.
  destruct (is_nonlinear (cn_op c) && negb (cn_lifted c)); [|by exists Qm].
  exists Q. split; [split_and!; [apply wf_empty|apply zall_empty|done]|]. exists Qm. split; [done|]. exists Qm. split; [|done]. split_and!; [apply wf_empty|apply zall_empty|done].
Qed.
Lemma span_on cs : forall evs r Q Q', span_projs cs = (evs, r) -> chain_on Q cs Q' -> exists Qm, projs_on Q evs Qm /\ chain_on Qm r Q'.
Proof.
  induction cs as [|c cs IH]; intros evs r Q Q' E H; simpl in E; [injection E as <- <-; exists Q; (split; [intros d Hd; exact Hd|done])|].
  destruct (cn_op c) eqn:Ec; try (injection E as <- <-; exists Q; (split; [intros d Hd; exact Hd|done])). destruct (span_projs cs) as [evs' r'] eqn:Es. injection E as <- <-.
  destruct H as (Qm & H1 & H2). rewrite Ec in H1. destruct (IH evs' r' Qm Q' eq_refl H2) as (Qn & H3 & H4). exists Qn. split; [|done]. by exists Qm.
Qed.
Lemma fuse_projs_on n : forall cs Q Q', chain_on Q cs Q' -> chain_on Q (fuse_sel_projs n cs) Q'.
Proof.
  induction n as [|n IH]; intros cs Q Q' H; [done|]. destruct cs as [|c l]; [done|]. pose proof H as (Qm & H1 & H2). simpl.
  assert (Hdef : chain_on Q (c :: fuse_sel_projs n l) Q') by (exists Qm; split; [done|by apply IH]).
  destruct (cn_op c) eqn:Ec; try exact Hdef; destruct (span_projs l) as [[|e0 evs] r] eqn:Es; try exact Hdef;
    destruct (span_on l _ _ _ _ Es H2) as (Qn & H3 & H4); exists Qn; (split; [|by apply IH]); cbn [cn_op node_on].
  - exists Q. split; [done|]. exists Qm. by split.
  - by exists Qm.
Qed.
Lemma fuse_sel_on cs Q Q' : chain_on Q cs Q' -> chain_on Q (fuse_proj_sel cs) Q'.
Proof.
  remember (length cs) as n eqn:En. revert cs En Q. induction (lt_wf n) as [n _ IH]. intros cs -> Q H.
  destruct cs as [|c1 [|c2 l]]; [done|done|]. rewrite fuse_proj_sel_eq. pose proof H as (Qm & H1 & Qn & H2 & H3).
  assert (Hdef : chain_on Q (c1 :: fuse_proj_sel (c2 :: l)) Q').
  { exists Qm. split; [done|]. apply (IH (length (c2 :: l))); [simpl; lia|done|]. by exists Qn. }
  destruct (cn_op c1) eqn:E1; try exact Hdef. destruct (cn_op c2) eqn:E2; try exact Hdef.
  exists Qn. split; [by exists Qm|]. apply (IH (length l)); [simpl; lia|done|done].
Qed.

(** *** Executors *)
Lemma join_all kinds Qk Q jev zs k d : jev_on kinds Qk Q jev -> Forall zwf zs -> Forall2 (fun nm z => zall (Qk nm) z) kinds zs ->
  key d = Some k -> join_mult jev zs k <> 0 -> Q d.
Proof.
  intros T W A Hk Hm. unfold join_mult in Hm. apply lsum_nz in Hm as ([t w] & Hin & Hg). simpl in Hg. assert (occ k (default [] (jev t)) <> 0) as Ho by lia.
  destruct (T t) as (l & El & Hl).
  - clear -W A Hin. revert t w Hin. revert W. induction A as [|nm z kinds zs Az _ IH]; intros W t w Hin; simpl in Hin; [destruct Hin as [[= <- <-]|[]]; constructor|].
    apply Forall_cons in W as [Wz W]. apply in_flat_map in Hin as ([d c] & Hd & Hin). apply in_map_iff in Hin as ([t' w'] & [= <- <-] & Hin).
    constructor; [|by eapply IH]. simpl. apply zents_in in Hd as (k & Hd & _); [|done]. by eapply zall_fine.
  - rewrite El in Ho. simpl in Ho. apply occ_in in Ho as (d' & Hd' & Hk'). rewrite (Hex d d' k Hk Hk'). rewrite List.Forall_forall in Hl. by apply Hl.
Qed.
Lemma join_good kinds Qk Q jev zs : jev_on kinds Qk Q jev -> Forall zwf zs -> Forall2 (fun nm z => zall (Qk nm) z) kinds zs -> all_good jev zs.
Proof.
  intros T W A t w Hin. destruct (T t) as (l & El & Hl).
  - clear -W A Hin. revert t w Hin. revert W. induction A as [|nm z kinds zs Az _ IH]; intros W t w Hin; simpl in Hin; [destruct Hin as [[= <- <-]|[]]; constructor|].
    apply Forall_cons in W as [Wz W]. apply in_flat_map in Hin as ([d c] & Hd & Hin). apply in_map_iff in Hin as ([t' w'] & [= <- <-] & Hin).
    constructor; [|by eapply IH]. simpl. apply zents_in in Hd as (k & Hd & _); [|done]. by eapply zall_fine.
  - exists l. split; [done|]. intros d' Hd'. rewrite List.Forall_forall in Hl. by apply Hl.
Qed.
Lemma term_all (kinds : list string) Qk m : forall i ds ps, Forall2 (fun nm z => zall (Qk nm) z) kinds ds -> Forall2 (fun nm z => zall (Qk nm) z) kinds ps ->
  Forall2 (fun nm z => zall (Qk nm) z) kinds (term_inputs i m ds ps).
Proof.
  induction kinds as [|nm kinds IH]; intros i ds ps H1 H2; inversion H1; inversion H2; subst; simpl; [constructor|]. constructor; [by destruct (Z.testbit m i)|by apply IH].
Qed.
Lemma sums_all (kinds : list string) Qk : forall Ps' Ps Ds, sums Ps' Ps Ds -> Forall zwf Ps' -> Forall zwf Ps -> Forall zwf Ds ->
  Forall2 (fun nm z => zall (Qk nm) z) kinds Ps -> Forall2 (fun nm z => zall (Qk nm) z) kinds Ds -> Forall2 (fun nm z => zall (Qk nm) z) kinds Ps'.
Proof.
  intros Ps' Ps Ds HS WP' WP WD A B. revert Ps' Ds HS WP' WP WD B. induction A as [|nm p kinds Ps Hp _ IH]; intros Ps' Ds HS WP' WP WD B; inversion B as [|? d ? Ds' Hd HB]; subst.
  - destruct HS as (L & _). by destruct Ps'; [constructor|].
  - destruct Ps' as [|a Ps']; [by destruct HS|]. apply sums_cons in HS as [Ha HS]. apply Forall_cons in WP' as [? ?], WP as [? ?], WD as [? ?].
    constructor; [|by eapply IH]. eapply (zall_by (Qk nm) p d); [done..|]. intros k Hk. rewrite Ha in Hk. lia.
Qed.
Definition graph_on (kinds : list string) (Qk : string -> doc -> Prop) (Q' : doc -> Prop) (g : graph) : Prop :=
  g_inputs g = kinds /\ kinds <> [] /\ exists Q, chain_on Q (g_chain g) Q' /\
  match g_join g with
  | None => forall k d, head kinds = Some k -> Qk k d -> Q d
  | Some (JInc jev n prevs) => jev_ok jev /\ jev_on kinds Qk Q jev /\ length prevs = n /\ n = length kinds
                               /\ Forall zwf (map (default zempty) prevs) /\ Forall2 (fun nm z => zall (Qk nm) z) kinds (map (default zempty) prevs)
  | _ => False
  end.
Definition feeds_on (kinds : list string) (Qk : string -> doc -> Prop) (i : gmap string zset) : Prop :=
  feeds kinds i /\ forall nm z, nm ∈ kinds -> i !! nm = Some z -> zall (Qk nm) z.
Lemma exec_process_on kinds Qk Q' o g i : order_ok o -> graph_on kinds Qk Q' g -> feeds_on kinds Qk i ->
  exists g' y, exec_process o g i = (g', Some y) /\ graph_on kinds Qk Q' g'.
Proof.
  intros Ho (Eg & Hi & Q & Hc & Hj) [(Hsz & Hl & Wi) HA]. unfold ExecModel.exec_process. rewrite Eg, Hsz, Nat.eqb_refl. cbn [negb].
  destruct (feeds_mapM kinds i Hl) as [ds Ed]. rewrite Ed.
  pose proof (mapM_wf _ _ _ Wi Ed) as Wd. destruct (mapM_lookup_nth _ _ _ Ed) as [Ld _].
  assert (Ad : Forall2 (fun nm z => zall (Qk nm) z) kinds ds).
  { clear -Ed HA. revert ds Ed. induction kinds as [|nm kinds IH]; intros ds Ed; simpl in Ed; [injection Ed as <-; constructor|].
    destruct (i !! nm) as [z|] eqn:Ez; [|done]. simpl in Ed. destruct (mapM (fun n => i !! n) kinds) as [zs|] eqn:Em; [|done]. injection Ed as <-.
    constructor; [by apply HA; [left|]|]. apply IH; [|done]. intros nm' z' Hn. apply HA. by right. }
  destruct g as [names j cs]; cbn [g_inputs g_join g_chain] in *. subst names. destruct j as [j|].
  - destruct j as [| jev n prevs | |]; try done. destruct Hj as (Hok & Ht & Lp & Ln & Wp & Ap). simpl.
    destruct (join_inc (osub o 0) jev n prevs ds) as [ps r] eqn:EJ.
    pose proof (join_inc_step (osub o 0) jev n prevs ds ps r (osub_ok o 0 Ho) Hok Wp Wd Lp ltac:(lia) EJ) as HS.
    destruct r as [z|].
    + destruct HS as (Ps' & -> & WP' & HS & Wz & Cz & _).
      assert (AP' : Forall2 (fun nm z => zall (Qk nm) z) kinds Ps') by (by eapply sums_all).
      assert (Az : zall Q z).
      { intros k d Hd. destruct (doc_count z k d Wz Hd) as [Hk Hc0]. rewrite Cz in Hc0. destruct (decide (join_mult jev Ps' k = 0)) as [E0|E0].
        - eapply (join_all kinds Qk Q jev _ k d Ht Wp Ap Hk). lia.
        - by eapply (join_all kinds Qk Q jev _ k d Ht WP' AP' Hk). }
      destruct (chain_process_on cs Q Q' (osub o 1) 0 z Hc (osub_ok o 1 Ho) Wz Az) as (cs' & y & -> & Wy & Ay & Hc').
      eexists _, y. split; [done|]. split; [done|]. split; [done|]. exists Q. split; [done|]. cbn [g_join].
      assert (EP : map (default zempty) (map Some Ps') = Ps') by (rewrite map_map; apply map_id).
      rewrite EP. split_and!; try done. rewrite map_length. destruct HS as (HS & _). lia.
    + exfalso. destruct HS as (_ & m & _ & HB). apply HB. eapply join_good; [exact Ht|by apply term_inputs_wf|by apply term_all].
  - destruct ds as [|z ds]; [destruct kinds; done|]. apply Forall_cons in Wd as [Wz _]. destruct kinds as [|k0 kinds]; [done|]. inversion Ad as [|? ? ? ? Az _]; subst.
    destruct (chain_process_on cs Q Q' (osub o 1) 0 z Hc (osub_ok o 1 Ho) Wz) as (cs' & y & -> & Wy & Ay & Hc').
    { intros k d Hd. eapply (Hj k0 d eq_refl), Az, Hd. }
    eexists _, y. split; [done|]. split; [done|]. split; [done|]. by exists Q.
Qed.
Lemma exec_run_on kinds Qk Q' o ins : order_ok o -> forall n g, graph_on kinds Qk Q' g -> Forall (feeds_on kinds Qk) ins ->
  exists outs, (exec_run o n g ins).2 = map Some outs.
Proof.
  intros Ho. induction ins as [|i ins IH]; intros n g Hg F; [by exists []|].
  apply Forall_cons in F as [Fi F].
  destruct (exec_process_on kinds Qk Q' (osub o n) g i (osub_ok o n Ho) Hg Fi) as (g1 & y & E & Hg1).
  simpl. rewrite E. destruct (IH (S n) g1 Hg1 F) as [outs Eo].
  destruct (exec_run o (S n) g1 ins) as [g2 rs]. simpl in *. subst rs. by exists (y :: outs).
Qed.
Lemma c13_on kinds Qk Q Q' join ps g1 o ins :
  pipeline_new kinds join ps = Some g1 -> kinds <> [] -> NoDup kinds -> forallb user_op ps = true ->
  ops_on Q ps Q' -> match join with Some jev => jev_ok jev /\ jev_on kinds Qk Q jev | None => forall k d, head kinds = Some k -> Qk k d -> Q d end ->
  order_ok o -> Forall (feeds_on kinds Qk) ins -> exists outs, (exec_run o 0 g1 ins).2 = map Some outs.
Proof.
  intros Hg1 Hk ND Hu Ht Hj Ho F.
  destruct (pipeline_graph kinds join ps) as [g|] eqn:Hg; [|by rewrite (pipeline_new_none _ _ _ Hg) in Hg1].
  destruct (c12_optimize kinds join ps g Hg Hu Hk) as (Eo & _ & En).
  rewrite En in Hg1. injection Hg1 as <-. rewrite Eo. cbn [fst]. clear Eo En.
  pose proof (pipeline_graph_eq _ _ _ _ Hg) as ->. cbn [g_inputs g_join g_chain].
  assert (EI : input_names kinds = kinds) by (unfold input_names; by rewrite add_inputs_nodup).
  rewrite EI. eapply (exec_run_on kinds Qk Q'); [done| |done].
  split; [done|]. split; [done|]. exists Q. split.
  - cbn [g_chain]. unfold opt_chain. by apply fuse_sel_on, fuse_projs_on, lift_on, user_on.
  - cbn [g_join]. destruct join as [jev|]; [|done]. simpl. destruct Hj as [Hj1 Hj2].
    assert (Forall2 (fun nm z => zall (Qk nm) z) kinds (map (default zempty) (repeat None (length kinds)))).
    { clear. induction kinds as [|k kinds IH]; simpl; [constructor|]. constructor; [apply zall_empty|done]. }
    split_and!; try done; [apply repeat_length|].
    apply List.Forall_forall. intros x Hx. apply in_map_iff in Hx as (x' & <- & Hx). apply repeat_spec in Hx as ->. apply wf_empty.
Qed.
End typed.
