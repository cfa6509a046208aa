(** Behaviours of chains: fused operators, rewrite rules, incremental
    correctness of lifted chains. *)
From Verif Require Import ZSetModel OpsModel ExecModel ZSetSpec ZSetProofs ZSetProofs2 OpsSpec OpsProofs ExecSpec StreamProofs JoinProofs.

Section chains.
Context {DD : Docs}.
Variable sortv : list val -> list val.
Local Notation process := (process sortv).
Local Notation op_stream := (op_stream sortv).
Local Notation chain_stream := (chain_stream sortv).
Local Notation scratch := (scratch sortv).
Implicit Types (z a b : zset) (k : ident).

(** ** Composition of linear operators *)
Definition comp_ev (ev1 ev2 : evaluator) : evaluator := fun d =>
  ds ← ev1 d; fss ← mapM ev2 ds; Some (concat fss).

Lemma mapM_out (ev : evaluator) ds fss : mapM ev ds = Some fss -> concat fss = flat_map (ev_out ev) ds.
Proof.
  revert fss; induction ds as [|d ds IH]; simpl; intros fss; [by intros [= <-]|].
  destruct (ev d) as [l|] eqn:E; simpl; [|done]. destruct (mapM ev ds) as [fss'|]; simpl; [|done].
  intros [= <-]. simpl. unfold ev_out at 1. rewrite E. simpl. f_equal. auto.
Qed.
Lemma mapM_in (ev : evaluator) ds fss d : mapM ev ds = Some fss -> In d ds -> exists l, ev d = Some l /\ incl l (concat fss).
Proof.
  revert fss; induction ds as [|d' ds IH]; simpl; intros fss; [done|].
  destruct (ev d') as [l|] eqn:E; simpl; [|done]. destruct (mapM ev ds) as [fss'|]; simpl; [|done].
  intros [= <-] [->|Hin].
  - exists l. split; [done|]. simpl. by apply incl_appl, incl_refl.
  - destruct (IH fss' eq_refl Hin) as (l' & ? & ?). exists l'. split; [done|]. simpl. by apply incl_appr.
Qed.

Lemma occ_flat_map {A} (f : A -> list doc) (l : list A) k : occ k (flat_map f l) = lsum (fun x => occ k (f x)) l.
Proof. unfold occ. by rewrite lsum_flat_map. Qed.
Lemma occ_nz_in k ds : occ k ds <> 0 -> exists d, In d ds /\ key d = Some k.
Proof.
  induction ds as [|d ds IH]; simpl; [done|]. unfold occ; simpl. fold (occ k ds).
  destruct (decide (key d = Some k)); [eauto|]. intros H. destruct IH as (d' & ? & ?); [lia|]. eauto.
Qed.

Lemma comp_linear (f1 f2 g : order -> zset -> option zset) ev1 ev2 evg o z y :
  linear_ext f1 ev1 -> linear_ext f2 ev2 -> linear_ext g evg ->
  (forall d l, evg d = Some l -> comp_ev ev1 ev2 d = Some l) ->
  ev_ok ev2 -> ev_keyed ev1 -> order_ok o -> zwf z -> g o z = Some y ->
  forall o1 o2, order_ok o1 -> order_ok o2 ->
  exists y1 y2, f1 o1 z = Some y1 /\ zwf y1 /\ f2 o2 y1 = Some y2 /\ zwf y2 /\ zeq y2 y.
Proof.
  intros L1 L2 Lg Href Hev2 Hk1 Ho W Eg o1 o2 Ho1 Ho2.
  destruct (Lg o z Ho W) as [Sg Mg]. destruct (Mg y Eg) as [Wy My].
  assert (Hg : forall k d, docs z !! k = Some d -> ev_good evg d) by (apply Sg; eauto).
  destruct (L1 o1 z Ho1 W) as [S1 M1].
  assert (is_Some (f1 o1 z)) as [y1 E1].
  { apply S1. intros k d Hd. destruct (Hg k d Hd) as (l & El & _). apply Href in El.
    unfold comp_ev in El. destruct (ev1 d) as [ds|] eqn:E1; [|done]. exists ds. split; [done|]. intros d' Hin. eapply (Hk1 d); eauto. exists k. by eapply (wf_key _ W). }
  destruct (M1 y1 E1) as [W1 MM1].
  destruct (L2 o2 y1 Ho2 W1) as [S2 M2].
  assert (is_Some (f2 o2 y1)) as [y2 E2].
  { apply S2. intros k d' Hd'. assert (Hk : key d' = Some k) by by eapply (wf_key _ W1).
    assert (Hnz : zcount y1 k <> 0).
    { destruct (proj1 (wf_lookup_docs y1 k W1)) as [c Hc]; [eauto|]. unfold zcount. rewrite Hc. by eapply (wf_nz _ W1). }
    rewrite MM1 in Hnz. rewrite zsum_wsum in Hnz.
    assert (exists d c, In (d, c) (zents z) /\ occ k (ev_out ev1 d) <> 0) as (d & c & Hin & Hocc).
    { clear -Hnz. induction (zents z) as [|[d c] es IH]; [done|]. unfold wsum in Hnz; simpl in Hnz. fold (wsum (fun d => occ k (ev_out ev1 d)) es) in Hnz.
      destruct (decide (occ k (ev_out ev1 d) = 0)) as [H0|H0].
      - destruct IH as (d0 & c0 & ? & ?); [lia|]. exists d0, c0. split; [by right|done].
      - exists d, c. split; [by left|done]. }
    apply zents_in in Hin as (kd & Hd & Hc); [|done].
    destruct (Hg kd d Hd) as (l & El & Hl). apply Href in El. unfold comp_ev in El. unfold ev_out in Hocc.
    destruct (ev1 d) as [ds|] eqn:Ed; simpl in *; [|done].
    destruct (mapM ev2 ds) as [fss|] eqn:Em; simpl in El; [|done]. injection El as <-.
    apply occ_nz_in in Hocc as (d'' & Hin'' & Hk'').
    destruct (mapM_in ev2 ds fss d'' Em Hin'') as (l'' & El'' & Hincl).
    apply (ev_ok_good ev2 d'' d' k Hev2 Hk'' Hk). exists l''. split; [done|]. auto. }
  destruct (M2 y2 E2) as [W2 MM2]. exists y1, y2. split_and!; try done.
  intros k. rewrite MM2, My, !zsum_wsum.
  set (es2 := flat_map (fun e => map (fun d' => (d', e.2)) (ev_out ev1 e.1)) (zents z)).
  rewrite (wsum_ext (fun d => occ k (ev_out ev2 d)) (zents y1) es2).
  - unfold wsum, es2. rewrite lsum_flat_map. apply lsum_ext. intros [d c] Hin. simpl.
    rewrite lsum_map. simpl. rewrite lsum_scale. f_equal.
    apply zents_in in Hin as (kd & Hd & Hc); [|done].
    destruct (Hg kd d Hd) as (l & El & Hl). unfold ev_out at 3. rewrite El. simpl. apply Href in El. unfold comp_ev in El.
    unfold ev_out at 2. destruct (ev1 d) as [ds|] eqn:Ed; simpl in *; [|done].
    destruct (mapM ev2 ds) as [fss|] eqn:Em; simpl in El; [|done]. injection El as <-.
    rewrite (mapM_out _ _ _ Em), occ_flat_map. done.
  - by apply ev_ok_congr.
  - by apply zents_keyed.
  - intros d' c Hin. unfold es2 in Hin. apply in_flat_map in Hin as ([d c'] & Hin & Hin').
    apply in_map_iff in Hin' as (d'' & [= -> <-] & Hin'). simpl in Hin'. unfold ev_out in Hin'.
    destruct (ev1 d) eqn:Ed; simpl in Hin'; [|done]. eapply (Hk1 d); eauto.
    apply zents_in in Hin as (k0 & Hd0 & _); [|done]. exists k0. by eapply (wf_key _ W).
  - intros k'. rewrite zents_esum by done. rewrite MM1, zsum_wsum. unfold es2, esum, wsum. rewrite lsum_flat_map.
    apply lsum_ext. intros [d c] _. simpl. rewrite <- esum_map_const. done.
Qed.

(** ** Fused operators as sequences of stages *)
Definition expand (p : op) : list op :=
  match p with
  | OProjSel pe se => [OProject pe; OSelect se]
  | OSelProjs (Some se) pes => OSelect se :: map OProject pes
  | OSelProjs None pes => map OProject pes
  | _ => [p]
  end.

Definition pc_ev (pes : list evaluator) : evaluator := fun d => d' ← proj_chain pes d; Some [d'].

Lemma scratch_eq_l ps a a' c : scratch ps a c -> zeq a a' -> scratch ps a' c.
Proof.
  intros H E. destruct H as [a b W E'|o p ps a a0 b c Ho W E' P H].
  - constructor; [done|]. by rewrite <- E.
  - eapply scratch_cons; eauto. by rewrite <- E.
Qed.
Lemma scratch_eq_r ps a c c' : scratch ps a c -> zwf c' -> zeq c c' -> scratch ps a c'.
Proof.
  intros H. revert c'. induction H as [a b W E'|o p ps a a0 b c Ho W E' P H IH]; intros c' W' E.
  - constructor; [done|]. by rewrite E'.
  - eapply scratch_cons; [exact Ho|exact W|exact E'|exact P|]. by apply IH.
Qed.
Lemma scratch_app ps1 ps2 a c : scratch (ps1 ++ ps2) a c <-> exists b, scratch ps1 a b /\ scratch ps2 b c.
Proof.
  split.
  - revert a. induction ps1 as [|p ps1 IH]; simpl; intros a H.
    + destruct H as [a b W E|o p ps a a0 b c Ho W E P H].
      * exists b. split; constructor; done.
      * exists a0. split; [by constructor|]. eapply scratch_cons; eauto. done.
    + inversion H as [|o' p' ps' a' a0 b c' Ho W E P H']; subst. apply IH in H' as (b' & H1 & H2).
      exists b'. split; [|done]. eapply scratch_cons; eauto.
  - intros (b & H1 & H2). revert H2. induction H1 as [a b W E|o p ps a a0 b0 b Ho W E P H IH]; simpl; intros H2.
    + eapply scratch_eq_l; [exact H2|]. by symmetry.
    + eapply scratch_cons; eauto.
Qed.

Lemma pc_ev_ok pes : Forall (fun ev => ev_ok ev /\ ev_keyed ev) pes -> ev_ok (pc_ev pes).
Proof.
  intros Hpes.  induction Hpes as [|pe pes [Hok Hk] Hpes IH].
    - intros d1 d2 k H1 H2. unfold pc_ev; simpl. by rewrite H1, H2.
    - intros d1 d2 k H1 H2. pose proof (Hok d1 d2 k H1 H2) as Hp. unfold pc_ev; simpl.
      destruct (pe d1) as [l1|] eqn:E1, (pe d2) as [l2|] eqn:E2; simpl; try done.
      destruct l1 as [|x1 [|x1' l1]], l2 as [|x2 [|x2' l2]]; simpl in *; try done;
        try (apply Permutation_length in Hp; simpl in Hp; rewrite ?map_length in Hp; lia).
      apply Permutation_length_1 in Hp. destruct (Hk d1 [x1] x1 ltac:(by exists k) E1) as [k' Hk']; [by left|].
      apply (IH x1 x2 k'); [done|]. by rewrite <- Hp. 
Qed.
Lemma scratch_projs pes : Forall (fun ev => ev_ok ev /\ ev_keyed ev) pes ->
  forall o z y, order_ok o -> zwf z -> project o (pc_ev pes) z = Some y -> scratch (map OProject pes) z y.
Proof.
  induction 1 as [|pe pes [Hok Hk] Hpes IH]; intros o z y Ho W E.
  - simpl. destruct (project_linear (pc_ev []) o z Ho W) as [_ M]. destruct (M y E) as [Wy My].
    constructor; [done|]. intros k. rewrite My, zsum_wsum. unfold wsum.
    rewrite <- zents_esum by done. unfold esum. apply lsum_ext. intros [d c] _. unfold ev_out, pc_ev; simpl.
    unfold occ; simpl. case_decide; lia.
  - simpl.
    destruct (comp_linear (fun o => project o pe) (fun o => project o (pc_ev pes)) (fun o => project o (pc_ev (pe :: pes)))
       pe (pc_ev pes) (pc_ev (pe :: pes)) o z y) with (o1 := std_order) (o2 := std_order)
      as (y1 & y2 & E1 & W1 & E2 & W2 & E'); auto using project_linear, std_order_ok.
    { intros d l. unfold pc_ev, comp_ev; simpl. destruct (pe d) as [[|d1 [|? ?]]|]; simpl; try done.
      destruct (proj_chain pes d1); simpl; [|done]. intros [= <-]. done. }
    { by apply pc_ev_ok. }
    eapply scratch_cons with (o := std_order) (a' := z); [apply std_order_ok|done|done|exact E1|].
    eapply scratch_eq_r; [eapply (IH std_order y1 y2); auto using std_order_ok| |].
    + destruct (project_linear (pc_ev (pe :: pes)) o z Ho W) as [_ M]. by destruct (M y E).
    + done.
Qed.

Lemma linear_ev_ext f ev ev' : (forall d, ev d = ev' d) -> linear_ext f ev -> linear_ext f ev'.
Proof.
  intros E L o z Ho W. destruct (L o z Ho W) as [S M]. split.
  - rewrite S. unfold ev_good. split; intros H k d Hd; destruct (H k d Hd) as (l & El & Hl); exists l; [rewrite <- E|rewrite E]; done.
  - intros z' Ez. destruct (M z' Ez) as [W' M']. split; [done|]. intros k. rewrite M', !zsum_wsum. unfold wsum.
    apply lsum_ext. intros [d c] _. unfold ev_out. by rewrite E.
Qed.

Lemma expand_scratch p o z y : evs_ok p -> op_wf p -> order_ok o -> zwf z -> (process o p z).2 = Some y -> scratch (expand p) z y.
Proof.
  intros Hok Hwf Ho W E.
  assert (Wy : zwf y).
  { destruct (process o p z) as [p' r] eqn:EP. simpl in E. subst r.
    by apply (process_wf sortv o p z p' (Some y) Ho Hwf W EP). }
  assert (Hdef : scratch [p] z y).
  { eapply (scratch_cons sortv o p [] z z y y); try done. by constructor. }
  destruct p as [| | | | | | | |pe se|se pes]; try exact Hdef; simpl in *.
  - destruct Hok as [[Hp Hpk] [Hs Hsk]].
    destruct (comp_linear (fun o => project o pe) (fun o => select o se) (fun o => proj_then_sel o pe se)
       pe se (pts_ev pe se) o z y) with (o1 := std_order) (o2 := std_order)
      as (y1 & y2 & E1 & W1 & E2 & W2 & E'); auto using project_linear, select_linear, proj_then_sel_linear, std_order_ok.
    eapply scratch_cons with (o := std_order) (a' := z); [apply std_order_ok|done|done|exact E1|].
    eapply scratch_cons with (o := std_order) (a' := y1); [apply std_order_ok|done|done|exact E2|]. by constructor.
  - destruct Hok as [Hs Hpes]. destruct se as [se|].
    + destruct Hs as [Hs Hsk].
      destruct (comp_linear (fun o => select o se) (fun o => project o (pc_ev pes)) (fun o => sel_then_projs o (Some se) pes)
         se (pc_ev pes) (stp_ev (Some se) pes) o z y) with (o1 := std_order) (o2 := std_order)
        as (y1 & y2 & E1 & W1 & E2 & W2 & E'); auto using project_linear, select_linear, sel_then_projs_linear, std_order_ok.
      { intros d l. unfold stp_ev, comp_ev. destruct (se d) as [ds|]; simpl; [|done]. intros E1.
        revert l E1. induction ds as [|d1 ds IH]; simpl; intros l E1; [done|].
        change (pc_ev pes d1) with (d' ← proj_chain pes d1; Some [d']). destruct (proj_chain pes d1) as [d1'|]; simpl in *; [|done].
        destruct (mapM (proj_chain pes) ds) as [l'|]; simpl in *; [|done]. specialize (IH l' eq_refl).
        destruct (mapM (pc_ev pes) ds) as [fss|]; simpl in *; [|done]. injection IH as <-. exact E1. }
      { by apply pc_ev_ok. }
      eapply scratch_cons with (o := std_order) (a' := z); [apply std_order_ok|done|done|exact E1|].
      eapply scratch_eq_r; [eapply (scratch_projs pes Hpes std_order y1 y2); auto using std_order_ok|done|done].
    + assert (L : linear_ext (fun o => sel_then_projs o None pes) (pc_ev pes)).
      { eapply linear_ev_ext; [|apply sel_then_projs_linear]. intros d. unfold stp_ev, pc_ev; simpl.
        destruct (proj_chain pes d); done. }
      destruct (L o z Ho W) as [S1 M1]. destruct (M1 y E) as [_ My].
      destruct (project_linear (pc_ev pes) std_order z std_order_ok W) as [S2 M2].
      assert (is_Some (project std_order (pc_ev pes) z)) as [y2 E2] by (apply S2, S1; eauto).
      destruct (M2 y2 E2) as [W2 My2].
      eapply scratch_eq_r; [eapply (scratch_projs pes Hpes std_order z y2); auto using std_order_ok|done|].
      intros k. by rewrite My2, My.
Qed.
End chains.
