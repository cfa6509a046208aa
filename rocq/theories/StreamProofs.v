(** Streams through chains: integration, differentiation, lifting. *)
From Verif Require Import ZSetModel OpsModel ExecModel ZSetSpec ZSetProofs ZSetProofs2 OpsSpec OpsProofs ExecSpec.

Section streams.
Context {DD : Docs}.
Variable sortv : list val -> list val.
Notation process := (process sortv).
Notation chain_process := (chain_process sortv).
Implicit Types (z a b : zset) (k : ident) (d : doc) (es : list (doc * Z)) (ev : evaluator).

(** ** Well-formedness is preserved *)
Lemma gather_aggregate_wf agg l : forall acc z, zwf acc -> gather_aggregate sortv agg acc l = Some z -> zwf z.
Proof.
  induction l as [|[i g] l IH]; simpl; intros acc z W; [by intros [= <-]|].
  destruct (agg _ _ _) as [d|]; simpl; [|done].
  destruct (add_doc acc d 1) as [acc'|] eqn:E; simpl; [|done].
  apply IH. eapply add_doc_spec; eauto.
Qed.
Lemma gather_wf o kx vx agg z y : gather o sortv kx vx agg z = Some y -> zwf y.
Proof.
  unfold gather. destruct (entries (osub o 0) z) as [es|]; simpl; [|done].
  destruct (gather_groups kx vx ∅ es) as [gs|]; simpl; [|done].
  apply gather_aggregate_wf, wf_empty.
Qed.

Lemma process_wf o p z p' r : order_ok o -> op_wf p -> zwf z -> process o p z = (p', r) ->
  op_wf p' /\ forall y, r = Some y -> zwf y.
Proof.
  intros Ho Wp W. destruct p; simpl in *.
  - intros [= <- <-]. split; [done|]. intros y. apply (linear_wf _ _ (project_linear ev)); auto.
  - intros [= <- <-]. split; [done|]. intros y. apply (linear_wf _ _ (select_linear ev)); auto.
  - intros [= <- <-]. split; [done|]. intros y. apply (linear_wf _ _ (unwind_linear ex tr)); auto.
  - intros [= <- <-]. split; [done|]. intros y. apply gather_wf.
  - intros [= <- <-]. split; [done|]. intros y E. destruct (zdistinct_spec o z) as (y' & E' & Wy & _); auto. congruence.
  - destruct (zadd_spec o state z) as (s & -> & Ws & _); auto. intros [= <- <-].
    split; [done|]. intros y [= <-]. by rewrite deep_copy_wf.
  - destruct (zsub_spec o z prev) as (s & -> & Ws & _); auto. intros [= <- <-].
    split; [by rewrite deep_copy_wf|]. by intros y [= <-].
  - intros [= <- <-]. rewrite !deep_copy_wf by done. split; [done|]. by intros y [= <-].
  - intros [= <- <-]. split; [done|]. intros y. apply (linear_wf _ _ (proj_then_sel_linear proj sel)); auto.
  - intros [= <- <-]. split; [done|]. intros y. apply (linear_wf _ _ (sel_then_projs_linear sel projs)); auto.
Qed.

(** ** Relational runs *)
Inductive orun : op -> list zset -> list zset -> Prop :=
  | orun_nil p : orun p [] []
  | orun_cons o p z p1 y zs ys :
      order_ok o -> process o p z = (p1, Some y) -> orun p1 zs ys -> orun p (z :: zs) (y :: ys).
Inductive chain_steps : list cnode -> list zset -> list zset -> Prop :=
  | cs_nil cs : chain_steps cs [] []
  | cs_cons o n cs z cs' y zs ys : order_ok o -> chain_process o n cs z = (cs', Some y) ->
      chain_steps cs' zs ys -> chain_steps cs (z :: zs) (y :: ys).

Lemma chain_run_steps o n cs zs cs' outs : order_ok o ->
  chain_run sortv o n cs zs = (cs', map Some outs) -> chain_steps cs zs outs.
Proof.
  intros Ho. revert n cs outs cs'. induction zs as [|z zs IH]; intros n cs outs cs'; simpl.
  - intros [= <- E]. destruct outs; [constructor|done].
  - destruct (chain_process (osub o n) 0 cs z) as [cs1 r] eqn:E1.
    destruct (chain_run sortv o (S n) cs1 zs) as [cs2 rs] eqn:E2.
    destruct outs as [|y outs]; simpl; intros [= <- -> Ers]; subst.
    eapply cs_cons; [by apply osub_ok|exact E1|]. eauto.
Qed.

Lemma chain_steps_nil zs outs : chain_steps [] zs outs -> outs = zs.
Proof.
  remember [] as cs eqn:Ecs. intros R. revert Ecs. induction R as [|o n cs z cs' y zs ys Ho E R IH]; intros ->; [done|].
  simpl in E. injection E as <- <-. f_equal. auto.
Qed.
Lemma chain_steps_cons c cs zs outs : chain_steps (c :: cs) zs outs ->
  exists mid, orun (cn_op c) zs mid /\ chain_steps cs mid outs.
Proof.
  remember (c :: cs) as cs0 eqn:Ecs. intros R. revert c cs Ecs.
  induction R as [cs1|o n cs0 z cs' y zs ys Ho E R IH]; intros c cs ->.
  - exists []. split; constructor.
  - simpl in E. destruct (process (osub o n) (cn_op c) z) as [p' r] eqn:Ep.
    destruct r as [z'|]; [|done].
    destruct (chain_process o (S n) cs z') as [cs1 r'] eqn:Ec. injection E as <- ->.
    destruct (IH (CNode p' (cn_lifted c)) cs1 eq_refl) as (mid & R1 & R2). simpl in R1.
    exists (z' :: mid). split.
    + eapply orun_cons; [by apply osub_ok|exact Ep|done].
    + eapply cs_cons; eauto.
Qed.
Lemma chain_steps_app c1 c2 zs outs : chain_steps (c1 ++ c2) zs outs ->
  exists mid, chain_steps c1 zs mid /\ chain_steps c2 mid outs.
Proof.
  revert zs; induction c1 as [|c c1 IH]; simpl; intros zs R.
  - exists zs. split; [|done]. clear R. induction zs as [|z zs IH]; [constructor|].
    eapply (cs_cons std_order 0); [apply std_order_ok|reflexivity|done].
  - apply chain_steps_cons in R as (m & R1 & R2). apply IH in R2 as (m' & R2 & R3).
    exists m'. split; [|done]. clear -R1 R2. revert c1 c m m' R1 R2.
    induction zs as [|z zs IH]; intros c1 c m m' R1 R2.
    + inversion R1; subst. inversion R2; subst. constructor.
    + inversion R1 as [|o1 p1' z1 p1 y1 zs1 ys1 Ho1 E1 R1']; subst.
      inversion R2 as [|o2 n2 cs2 z2 cs2' y2 zs2 ys2 Ho2 E2 R2']; subst.
      specialize (IH cs2' (CNode p1 (cn_lifted c)) ys1 ys2 R1' R2').
      (* combine the two orders: the head uses o1, the rest o2 *)
      set (oc := fun V p => match p with
                 | 0%nat :: q => o1 V q
                 | S m :: q => o2 V ((m + n2)%nat :: q)
                 | [] => o1 V [] end : gmap ident V -> list (ident * V)).
      assert (Hoc : order_ok oc).
      { intros V p m. unfold oc. destruct p as [|[|x] q]; [apply Ho1|apply Ho1|apply Ho2]. }
      eapply (cs_cons oc 0); [done| |exact IH]. simpl.
      change (osub oc 0) with (fun V p => o1 V p). 
      assert ((fun V p => o1 V p) = o1) as -> by reflexivity. rewrite E1.
      assert (forall j cs z, chain_process oc (S j) cs z = chain_process o2 (j + n2) cs z) as G.
      { clear. intros j cs. revert j. induction cs as [|c cs IH]; intros j z; simpl; [done|].
        change (osub oc (S j)) with (fun V p => osub o2 (j + n2) V p).
        assert ((fun V p => osub o2 (j + n2) V p) = osub o2 (j + n2)) as -> by reflexivity.
        destruct (process (osub o2 (j + n2)) (cn_op c) z) as [p' [z'|]]; [|done].
        rewrite IH. done. }
      rewrite G. simpl. rewrite E2. done.
Qed.

Lemma orun_wf p zs ys : orun p zs ys -> op_wf p -> Forall zwf zs -> Forall zwf ys.
Proof.
  induction 1 as [|o p z p1 y zs ys Ho E R IH]; intros Wp Wzs; [constructor|].
  apply Forall_cons in Wzs as [Wz Wzs].
  destruct (process_wf _ _ _ _ _ Ho Wp Wz E) as [Wp1 Wy]. constructor; auto.
Qed.

(** ** Integrator and differentiator *)
Lemma int_step o s z : order_ok o -> zwf s -> zwf z -> exists s', process o (OInt s) z = (OInt s', Some s')
  /\ zwf s' /\ forall k, zcount s' k = zcount s k + zcount z k.
Proof.
  intros Ho Ws Wz. simpl. destruct (zadd_spec o s z) as (s' & -> & W' & M); auto.
  exists s'. rewrite deep_copy_wf by done. done.
Qed.
Lemma diff_step o s z : order_ok o -> zwf s -> zwf z -> exists y, process o (ODiff s) z = (ODiff z, Some y)
  /\ zwf y /\ forall k, zcount y k = zcount z k - zcount s k.
Proof.
  intros Ho Ws Wz. simpl. destruct (zsub_spec o z s) as (s' & -> & W' & M); auto.
  exists s'. rewrite deep_copy_wf by done. done.
Qed.

Lemma chain_one o n c z : chain_process o n [c] z =
  (let '(p', r) := process (osub o n) (cn_op c) z in ([CNode p' (cn_lifted c)], r)).
Proof. simpl. destruct (process (osub o n) (cn_op c) z) as [p' [y|]]; done. Qed.

Lemma int_diff_run o zs l1 l2 : order_ok o -> Forall zwf zs -> forall n s p, zwf s -> zwf p -> zeq s p ->
  emits (chain_run sortv o n [CNode (OInt s) l1; CNode (ODiff p) l2] zs).2 zs.
Proof.
  intros Ho. induction 1 as [|z zs Wz Wzs IH]; intros n s p Ws Wp E; [constructor|].
  cbn [chain_run chain_process cn_op cn_lifted].
  destruct (int_step (osub (osub o n) 0) s z) as (s' & -> & Ws' & Ms); auto using osub_ok.
  destruct (diff_step (osub (osub o n) 1) p s') as (y & -> & Wy & My); auto using osub_ok.
  specialize (IH (S n) s' s' Ws' Ws' (zeq_refl _)).
  destruct (chain_run sortv o (S n) _ zs) as [cs2 rs]. simpl in *. constructor; [|done].
  exists y. split; [done|]. split; [done|]. intros k. rewrite My, Ms, (E k). lia.
Qed.
Lemma diff_int_run o zs l1 l2 : order_ok o -> Forall zwf zs -> forall n s p, zwf s -> zwf p -> zeq s p ->
  emits (chain_run sortv o n [CNode (ODiff p) l1; CNode (OInt s) l2] zs).2 zs.
Proof.
  intros Ho. induction 1 as [|z zs Wz Wzs IH]; intros n s p Ws Wp E; [constructor|].
  cbn [chain_run chain_process cn_op cn_lifted].
  destruct (diff_step (osub (osub o n) 0) p z) as (y & -> & Wy & My); auto using osub_ok.
  destruct (int_step (osub (osub o n) 1) s y) as (s' & -> & Ws' & Ms); auto using osub_ok.
  assert (E' : zeq s' z). { intros k. rewrite Ms, My, (E k). lia. }
  specialize (IH (S n) s' z Ws' Wz E').
  destruct (chain_run sortv o (S n) _ zs) as [cs2 rs]. simpl in *. constructor; [|done].
  exists s'. done.
Qed.
Lemma delay_run o zs l : Forall zwf zs -> forall n b, zwf b ->
  (chain_run sortv o n [CNode (ODelay b) l] zs).2 = map Some (take (length zs) (b :: zs)).
Proof.
  induction 1 as [|z zs Wz Wzs IH]; intros n b Wb; [done|].
  cbn [chain_run chain_process cn_op cn_lifted OpsModel.process].
  rewrite !deep_copy_wf by done. specialize (IH (S n) z Wz).
  destruct (chain_run sortv o (S n) _ zs) as [cs2 rs]. simpl in *. congruence.
Qed.

(** ** Streams and totals *)
Lemma total_cons z zs k : total (z :: zs) k = zcount z k + total zs k.
Proof. done. Qed.
Lemma total_exists zs : Forall zwf zs -> exists a, is_total a zs.
Proof.
  induction 1 as [|z zs Wz Wzs (a & Wa & Ma)].
  - exists zempty. split; [apply wf_empty|]. intros k. rewrite mult_empty. done.
  - destruct (zadd_spec std_order z a std_order_ok Wz Wa) as (s & _ & Ws & Ms).
    exists s. split; [done|]. intros k. rewrite Ms, Ma, total_cons. done.
Qed.

Lemma last_cons_default {A} (x : A) l (d0 : A) : List.last (x :: l) d0 = List.last l x.
Proof.
  revert x d0; induction l as [|y l IH]; intros x d0; [done|].
  change (List.last (x :: y :: l) d0) with (List.last (y :: l) d0). by rewrite !IH.
Qed.

(** A differentiator telescopes. *)
Lemma diff_run_total p zs ys : orun p zs ys -> forall s, p = ODiff s -> zwf s -> Forall zwf zs ->
  forall k, total ys k = zcount (List.last zs s) k - zcount s k.
Proof.
  induction 1 as [|o p z p1 y zs ys Ho E R IH]; intros s -> Ws Wzs k.
  - simpl. unfold total; simpl. lia.
  - apply Forall_cons in Wzs as [Wz Wzs].
    destruct (diff_step o s z) as (y' & E' & Wy & My); auto. rewrite E' in E. injection E as <- <-.
    rewrite total_cons, (IH z eq_refl Wz Wzs), My.
    rewrite last_cons_default. lia.
Qed.
(** An integrator emits the running total. *)
Lemma int_run_last p zs ys : orun p zs ys -> forall s, p = OInt s -> zwf s -> Forall zwf zs ->
  forall k, zcount (List.last ys s) k = zcount s k + total zs k.
Proof.
  induction 1 as [|o p z p1 y zs ys Ho E R IH]; intros s -> Ws Wzs k.
  - simpl. unfold total; simpl. lia.
  - apply Forall_cons in Wzs as [Wz Wzs].
    destruct (int_step o s z) as (s' & E' & Ws' & Ms); auto. rewrite E' in E. injection E as <- <-.
    rewrite total_cons.
    rewrite last_cons_default, (IH s' eq_refl Ws' Wzs), Ms. lia.
Qed.

(** Stateless operators. *)
Definition stateless (p : op) : Prop := match p with OInt _ | ODiff _ | ODelay _ => False | _ => True end.
Lemma stateless_step o p z : stateless p -> (process o p z).1 = p.
Proof. destruct p; simpl; done. Qed.
Lemma stateless_run p zs ys : orun p zs ys -> stateless p ->
  Forall2 (fun z y => exists o, order_ok o /\ (process o p z).2 = Some y) zs ys.
Proof.
  induction 1 as [|o p z p1 y zs ys Ho E R IH]; intros S; [constructor|].
  pose proof (stateless_step o p z S) as Ep. rewrite E in Ep. simpl in Ep. subst p1.
  constructor; [|auto]. exists o. split; [done|]. by rewrite E.
Qed.

Lemma entries_zempty o z : order_ok o -> zwf z -> (forall k, zcount z k = 0) -> entries o z = Some [].
Proof.
  intros Ho W H0. assert (counts z = ∅) as E.
  { apply map_eq. intros k. rewrite lookup_empty. destruct (counts z !! k) as [c|] eqn:Ec; [|done].
    exfalso. apply (wf_nz _ W k c Ec). specialize (H0 k). unfold zcount in H0. by rewrite Ec in H0. }
  unfold entries. rewrite E. specialize (Ho Z [] ∅). rewrite map_to_list_empty in Ho.
  apply Permutation_sym, Permutation_nil in Ho. by rewrite Ho.
Qed.

Lemma process_zero o p z : order_ok o -> zwf z -> (forall k, zcount z k = 0) -> is_nonlinear p = true ->
  exists y, (process o p z).2 = Some y /\ zwf y /\ forall k, zcount y k = 0.
Proof.
  intros Ho W H0 Hn. exists zempty. split; [|split; [apply wf_empty|apply mult_empty]].
  destruct p; try done; simpl.
  - unfold gather. rewrite entries_zempty by auto using osub_ok. simpl.
    specialize (Ho group_data [1%nat] ∅). rewrite map_to_list_empty in Ho.
    apply Permutation_sym, Permutation_nil in Ho. by rewrite Ho.
  - unfold zdistinct. by rewrite entries_zempty.
Qed.

Lemma nonlinear_stateless p : is_nonlinear p = true -> stateless p.
Proof. by destruct p. Qed.

(** The lifted operator over a whole stream. *)
Lemma lifted_total F s p l1 l2 l3 zs outs : is_nonlinear F = true ->
  s = zempty -> p = zempty ->
  chain_steps [CNode (OInt s) l1; CNode F l2; CNode (ODiff p) l3] zs outs -> Forall zwf zs ->
  exists a y o, is_total a zs /\ order_ok o /\ (process o F a).2 = Some y /\ is_total y outs.
Proof.
  intros Hn -> -> R Wzs.
  apply chain_steps_cons in R as (m1 & R1 & R). apply chain_steps_cons in R as (m2 & R2 & R).
  apply chain_steps_cons in R as (m3 & R3 & R). apply chain_steps_nil in R as ->. simpl in *.
  assert (Wm1 : Forall zwf m1) by (eapply orun_wf; eauto; apply wf_empty).
  assert (Wm2 : Forall zwf m2).
  { eapply orun_wf; eauto. by destruct F. }
  pose proof (int_run_last _ _ _ R1 zempty eq_refl wf_empty Wzs) as M1.
  pose proof (diff_run_total _ _ _ R3 zempty eq_refl wf_empty Wm2) as M3.
  apply stateless_run in R2; [|by apply nonlinear_stateless].
  destruct m1 as [|x m1] using rev_ind.
  - inversion R2; subst. simpl in *.
    destruct (process_zero std_order F zempty) as (y & Ey & Wy & My); auto using std_order_ok, wf_empty, mult_empty.
    exists zempty, y, std_order. split; [|split; [apply std_order_ok|split; [done|]]].
    + split; [apply wf_empty|]. intros k. rewrite M1, mult_empty. lia.
    + split; [done|]. intros k. rewrite My, M3. lia.
  - clear IHm1. apply Forall2_app_inv_l in R2 as (m2a & m2b & _ & R2 & ->).
    inversion R2 as [|? y ? ? (o & Ho & Ey) R2']; subst. inversion R2'; subst.
    exists x, y, o. rewrite last_last in M1. split; [|split; [done|split; [done|]]].
    + split.
      * apply Forall_app in Wm1 as [_ Wm1]. by apply Forall_cons in Wm1 as [? _].
      * intros k. rewrite M1, mult_empty. lia.
    + split.
      * apply Forall_app in Wm2 as [_ Wm2]. by apply Forall_cons in Wm2 as [? _].
      * intros k. rewrite M3, last_last, mult_empty. lia.
Qed.

Lemma chain_steps_take cs zs outs n : chain_steps cs zs outs -> chain_steps cs (take n zs) (take n outs).
Proof.
  intros R. revert n. induction R as [|o m cs z cs' y zs ys Ho E R IH]; intros n.
  - rewrite !take_nil. constructor.
  - destruct n; simpl; [constructor|]. eapply cs_cons; eauto.
Qed.

Lemma c09_lifted F o zs cs' outs n : is_nonlinear F = true -> order_ok o -> Forall zwf zs ->
  chain_run sortv o 0 (lifted F) zs = (cs', map Some outs) ->
  exists a y o', is_total a (take n zs) /\ order_ok o' /\ (process o' F a).2 = Some y /\ is_total y (take n outs).
Proof.
  intros Hn Ho Wzs R. apply chain_run_steps in R; [|done].
  apply (chain_steps_take _ _ _ n) in R. eapply lifted_total; eauto.
  by apply Forall_take.
Qed.

End streams.
