From Verif Require Import JsonProofs ObjProofs RegistryModel RegistrySpec GroupProofs RegistryProofs RegistryProofs2 OperatorModel OperatorSpec.

Lemma dedup_in l : forall seen x, x ∈ dedup seen l <-> x ∈ l /\ x ∉ seen.
Proof.
  induction l as [|y l IH]; intros seen x; cbn [dedup].
  { split; [intros H; by apply elem_of_nil in H|intros [H _]; by apply elem_of_nil in H]. }
  destruct (decide (y ∈ seen)) as [E|E].
  - rewrite IH, elem_of_cons. split; [intros []; split; [by right|done]|intros [[->|?] ?]; done].
  - rewrite !elem_of_cons, IH, not_elem_of_cons. destruct (decide (x = y)) as [->|N]; [split; [intros _; split; [by left|done]|intros _; by left]|].
    split; [intros [?|(?&?&?)]; [done|]; split; [by right|done]|intros [[?|?] ?]; [done|]; by right].
Qed.
Lemma dedup_nodup l : forall seen, NoDup (dedup seen l).
Proof.
  induction l as [|y l IH]; intros seen; cbn [dedup]; [constructor|]. destruct (decide (y ∈ seen)); [done|].
  constructor; [|done]. rewrite dedup_in. intros [_ H]. apply H. left.
Qed.
Lemma groups_order l : order_of (groups_of l) l.
Proof.
  unfold groups_of. split; [apply NoDup_remove_dups|]. intros g. rewrite elem_of_remove_dups, elem_of_list_In, in_map_iff.
  split; intros (x & A & B); exists x; rewrite elem_of_list_In in *; done.
Qed.
Lemma view_group_is n : is_view_group (view_group n) = true.
Proof. apply vgn. exists (n +:+ "."). unfold view_group. by rewrite app_assoc_s. Qed.
Lemma view_group_spec n : view_group n = (n +:+ ".view.dcontroller.io")%string.
Proof. done. Qed.

Section kinds.
Variable mapper : string -> string -> option gvk.
Variable builds : cspec -> bool.
Hypothesis NM : native_mapper mapper.
Lemma res_own n r x : (res_gvk mapper n r = Some x /\ gvk_group x = view_group n) <-> own_view_kind n r (gvk_kind x) /\ x = GVK (view_group n) "v1alpha1" (gvk_kind x).
Proof.
  unfold res_gvk, own_view_kind. rewrite <- view_group_spec. split.
  - intros [H G]. destruct (decide (s_kind r = EmptyString)) as [|K]; [done|]. rewrite view_group_is in H.
    assert (E : (s_group r = None \/ s_group r = Some (view_group n)) /\ x = GVK (view_group n) "v1alpha1" (s_kind r)).
    { destruct (s_group r) as [g|]; [|injection H as <-; split; [by left|done]]. destruct (decide (g = view_group n)) as [->|N].
      { rewrite view_group_is in H. injection H as <-. split; [by right|done]. }
      exfalso. destruct (s_version r) as [v|]; [injection H as <-; done|]. destruct (is_view_group g) eqn:Q; [injection H as <-; done|].
      apply NM in H. rewrite G, view_group_is in H. done. }
    destruct E as [E ->]. cbn. done.
  - intros [(K & NE & G) ->]. cbn in *. rewrite decide_False by congruence. rewrite K. split; [|done]. destruct G as [->| ->].
    + by rewrite view_group_is. + rewrite decide_True by done. by rewrite view_group_is.
Qed.
Lemma oper_kinds n cs x : x ∈ oper_gvks mapper (Oper n (map (new_declarative mapper builds n) cs)) <->
  x = GVK (view_group n) "v1alpha1" (gvk_kind x) /\ view_kind_of mapper n cs (gvk_kind x).
Proof.
  unfold oper_gvks. cbn [o_name o_ctrls]. rewrite dedup_in, in_group_of, elem_in_group, elem_of_list_In, in_concat.
  assert (CG : forall c, (x ∈ ctrl_gvks mapper n (new_declarative mapper builds n c) /\ gvk_group x = view_group n) <->
    x = GVK (view_group n) "v1alpha1" (gvk_kind x) /\ exists t, c_name c <> EmptyString /\ c_sources c <> [] /\ c_target c = Some t /\
      (own_view_kind n t (gvk_kind x) \/ (res_gvk mapper n t <> None /\ exists r, r ∈ c_sources c /\ own_view_kind n r (gvk_kind x)))).
  { intros c. unfold new_declarative, ctrl_gvks. destruct (decide (c_name c = EmptyString)) as [E|E].
    { cbn. split; [intros [H _]; by apply elem_of_nil in H|intros (_ & t & ? & _); done]. }
    destruct (c_sources c) as [|s0 ss] eqn:ES.
    { cbn. split; [intros [H _]; by apply elem_of_nil in H|intros (_ & t & _ & ? & _); done]. }
    destruct (c_target c) as [t|] eqn:ET.
    2: { cbn. split; [intros [H _]; by apply elem_of_nil in H|intros (_ & t & _ & _ & ? & _); done]. }
    rewrite <- ES. destruct (res_gvk mapper n t) as [y|] eqn:RT; cbn [k_target k_sources]; rewrite RT; cbn [option_list app].
    - change (option_list (Some y) ++ ?l) with (y :: l).
      rewrite elem_of_cons, elem_of_list_omap. split.
      + intros [[->|(r & Hr & RR)] G].
        * destruct (proj1 (res_own n t y) (conj RT G)) as [A B]. split; [done|]. exists t. rewrite ES. split_and!; try done. by left.
        * destruct (proj1 (res_own n r x) (conj RR G)) as [A B]. split; [done|]. exists t. split_and!; [done|by rewrite ES|done|]. right. rewrite RT. split; [done|]. by exists r.
      + intros (X & t' & _ & _ & [= <-] & [H|(_ & r & Hr & H)]).
        * destruct (proj2 (res_own n t x) (conj H X)) as [A B]. split; [|done]. left. congruence.
        * destruct (proj2 (res_own n r x) (conj H X)) as [A B]. split; [|done]. right. by exists r.
    - cbn. split; [intros [H _]; by apply elem_of_nil in H|]. intros (X & t' & _ & _ & [= <-] & [H|(Q & _)]); [|done].
      destruct (proj2 (res_own n t x) (conj H X)) as [A _]. congruence. }
  split.
  - intros [[(l & Hl & Hx) G] _]. apply in_map_iff in Hl. destruct Hl as (k & <- & Hk). apply in_map_iff in Hk. destruct Hk as (c & <- & Hc).
    apply elem_of_list_In in Hx. destruct (proj1 (CG c) (conj Hx G)) as (X & t & R). split; [done|]. exists c, t. split; [by apply elem_of_list_In|done].
  - intros [X (c & t & Hc & R)]. split; [|apply not_elem_of_nil]. destruct (proj2 (CG c)) as [A B]; [split; [done|by exists t]|]. split; [|done].
    exists (ctrl_gvks mapper n (new_declarative mapper builds n c)). split; [|by apply elem_of_list_In]. apply in_map, in_map. by apply elem_of_list_In.
Qed.
Lemma oper_nodup o : NoDup (oper_gvks mapper o).
Proof. apply dedup_nodup. Qed.
Lemma oper_group o x : x ∈ oper_gvks mapper o -> gvk_group x = view_group (o_name o).
Proof. unfold oper_gvks. rewrite dedup_in, in_group_of, elem_in_group. intros [[_ ?] _]. done. Qed.
Lemma in_group_all g l : (forall x, x ∈ l -> gvk_group x = g) -> in_group g l = l.
Proof.
  unfold in_group. induction l as [|x l IH]; intros H; [done|]. cbn. rewrite bool_decide_eq_true_2 by (apply H; left). f_equal. apply IH. intros; apply H; by right.
Qed.
End kinds.

#[local] Open Scope nat_scope.
Section inv.
Variable mapper : string -> string -> option gvk.
Variable builds : cspec -> bool.
Variable servable : gvk -> bool.
Hypothesis NM : native_mapper mapper.
Variable M : gvk -> Prop.
Hypothesis KO : kinds_ok servable M.
Notation made n cs := (Oper n (map (new_declarative mapper builds n) cs)).
Definition spec_ok (n : string) (cs : list cspec) : Prop := forall x, x ∈ oper_gvks mapper (made n cs) -> M x.

Record oinv (w : string -> option (list cspec)) (s : opctl) : Prop := {
  oi_flags : api_set s = true /\ started s = true;
  oi_ops : forall n, ops s !! n = match w n with None => None | Some cs => match ops s !! n with Some e => Some (Entry (made n cs) (e_cancel e)) | None => Some (Entry (made n cs) None) end end;
  oi_cancel : forall n e, ops s !! n = Some e -> exists i, e_cancel e = Some i /\ live s !! i = Some (e_op e);
  oi_live : forall i o, live s !! i = Some o -> i < next s /\ exists e, ops s !! o_name o = Some e /\ e_cancel e = Some i /\ e_op e = o;
  oi_api : exists cur, inv M cur (api s) /\ exact cur (api s) /\
     (forall n, cur (view_group n) = match w n with Some cs => oper_gvks mapper (made n cs) | None => [] end) /\
     (forall g, is_view_group g = true -> cur g <> [] -> exists n, g = view_group n) }.

Definition wupd (w : string -> option (list cspec)) (n : string) (v : option (list cspec)) : string -> option (list cspec) := fun n' => if decide (n = n') then v else w n'.

Lemma oinv_ops w s n : oinv w s -> match w n with None => ops s !! n = None | Some cs => exists i, ops s !! n = Some (Entry (made n cs) (Some i)) /\ live s !! i = Some (made n cs) end.
Proof.
  intros I. pose proof (oi_ops _ _ I n) as H. destruct (w n) as [cs|]; [|done]. destruct (ops s !! n) as [e|] eqn:E; [|done].
  destruct (oi_cancel _ _ I n e E) as (i & Q & L). injection H as H. exists i. rewrite H in L. cbn in L. rewrite H, Q. done.
Qed.

Lemma api_unregister cur a n l : inv M cur a -> exact cur a -> (forall x, x ∈ l -> gvk_group x = view_group n) -> l = cur (view_group n) ->
  exists cur', inv M cur' (unregister_gvks (groups_of l) a) /\ exact cur' (unregister_gvks (groups_of l) a) /\
    (forall g, is_view_group g = true -> cur' g = if decide (g = view_group n) then [] else cur g).
Proof.
  intros I X G E. destruct (many_unregister servable M KO (groups_of l) cur a I) as (cur' & A & B & C). exists cur'. split; [done|]. split; [by apply C|].
  intros g Hg. rewrite (B g Hg). destruct (groups_order l) as [_ O]. destruct (decide (g = view_group n)) as [->|N].
  - destruct (decide (view_group n ∈ groups_of l)) as [Q|Q]; [done|]. rewrite <- E. destruct l as [|x l]; [done|]. exfalso. apply Q, O. exists x. split; [left|apply G; left].
  - rewrite decide_False; [done|]. intros Q. apply O in Q. destruct Q as (x & Hx & <-). by apply N, G.
Qed.
Lemma api_register cur a n l : inv M cur a -> exact cur a -> (forall x, x ∈ l -> gvk_group x = view_group n /\ M x) -> cur (view_group n) = [] ->
  exists cur', inv M cur' (register_gvks servable (groups_of l) a l).1 /\ (register_gvks servable (groups_of l) a l).2 = Done /\ exact cur' (register_gvks servable (groups_of l) a l).1 /\
    (forall g, is_view_group g = true -> cur' g = if decide (g = view_group n) then l else cur g).
Proof.
  intros I X G E. destruct (groups_order l) as [ND O].
  destruct (many_register servable M KO l (groups_of l)) with (cur := cur) (s := a) as (cur' & A & B & C & D); [|..|exact ND|exact I|].
  - intros x Hx _. by apply G.
  - intros g Hg Q. apply O in Hg. destruct Hg as (x & Hx & Gx). rewrite in_group_nil in Q. by apply (Q x).
  - exists cur'. split; [done|]. split; [done|]. split.
    + apply D; [done|]. intros g x Hg Ho Hx. apply O in Ho. destruct Ho as (y & Hy & <-). destruct (G y Hy) as [Gy _]. rewrite Gy, E in Hx. by apply elem_of_nil in Hx.
    + intros g Hg. rewrite (C g Hg). destruct (decide (g = view_group n)) as [->|N].
      * destruct (decide (view_group n ∈ groups_of l)) as [Q|Q]; [apply in_group_all; intros x Hx; by apply G|].
        rewrite E. destruct l as [|x l]; [done|]. exfalso. apply Q, O. exists x. split; [left|apply G; left].
      * rewrite decide_False; [done|]. intros Q. apply O in Q. destruct Q as (x & Hx & <-). by apply N, G.
Qed.

Lemma oinv_delete w s n : oinv w s -> oinv (wupd w n None) (delete_operator mapper s n).1 /\ (delete_operator mapper s n).2 = Done.
Proof.
  intros I. unfold delete_operator. pose proof (oinv_ops w s n I) as H. destruct (w n) as [cs|] eqn:W.
  - destruct H as (i & E & L). rewrite E. cbn [e_cancel e_op]. destruct (oi_flags _ _ I) as [F1 F2]. rewrite F1. split; [|done]. split; cbn [fst api api_set ops live next started].
    + done.
    + intros n'. unfold wupd. destruct (decide (n = n')) as [<-|N]; [by rewrite lookup_delete|]. rewrite lookup_delete_ne by done. apply (oi_ops _ _ I).
    + intros n' e. rewrite lookup_delete_Some. intros [N Ee]. destruct (oi_cancel _ _ I n' e Ee) as (j & Q & Lj). exists j. split; [done|].
      rewrite lookup_delete_ne; [done|]. intros <-. apply N. rewrite L in Lj. injection Lj as Lj.
      pose proof (oi_ops _ _ I n') as O. rewrite Ee in O. destruct (w n') as [cs'|]; [|done]. injection O as O. rewrite O in Lj. cbn in Lj. by injection Lj.
    + intros j o. rewrite lookup_delete_Some. intros [N Lj]. destruct (oi_live _ _ I j o Lj) as (B & e & Ee & Qe & Oe). split; [done|]. exists e. split; [|done].
      rewrite lookup_delete_ne; [done|]. intros Q. rewrite <- Q, E in Ee. injection Ee as <-. cbn in Qe. congruence.
    + destruct (oi_api _ _ I) as (cur & A & B & C & D).
      destruct (api_unregister cur (api s) n (oper_gvks mapper (made n cs)) A B) as (cur' & A' & B' & C').
      * intros x Hx. apply (oper_group mapper _ x Hx). * by rewrite (C n), W.
      * exists cur'. split; [done|]. split; [done|]. split.
        -- intros n'. rewrite (C' _ (view_group_is n')). unfold wupd. destruct (decide (n = n')) as [<-|N]; [by rewrite decide_True|].
           rewrite decide_False; [apply C|]. intros Q. by apply view_group_inj in Q.
        -- intros g Hg. rewrite (C' g Hg). destruct (decide (g = view_group n)); [done|]. by apply D.
  - rewrite H. split; [|done]. assert (E : forall n', wupd w n None n' = w n') by (intros n'; unfold wupd; by destruct (decide (n = n')) as [<-|]).
    destruct I as [I1 I2 I3 I4 (cur & A & B & C & D)]. split; [done| |done|done|].
    + intros n'. rewrite E. apply I2.
    + exists cur. split; [done|]. split; [done|]. split; [|done]. intros n'. rewrite E. apply C.
Qed.
Lemma oinv_add w s n cs : oinv w s -> w n = None -> spec_ok n cs ->
  oinv (wupd w n (Some cs)) (add_from_spec mapper builds servable true s n cs).1 /\ (add_from_spec mapper builds servable true s n cs).2 = Done.
Proof.
  intros I W SO. destruct (oi_flags _ _ I) as [F1 F2]. pose proof (oinv_ops w s n I) as HN. rewrite W in HN.
  unfold add_from_spec, add_spec. rewrite F1. set (o := made n cs). destruct (oi_api _ _ I) as (cur & A & B & C & D).
  destruct (api_register cur (api s) n (oper_gvks mapper o) A B) as (cur' & A' & O' & B' & C').
  { intros x Hx. split; [apply (oper_group mapper _ x Hx)|by apply SO]. } { by rewrite (C n), W. }
  destruct (register_gvks servable (groups_of (oper_gvks mapper o)) (api s) (oper_gvks mapper o)) as [a out]. cbn in A', O', B'. subst out.
  rewrite bool_decide_eq_false_2 by done. cbn [negb]. unfold add_operator. cbn [started]. rewrite F2. split; [|done].
  unfold start_op. cbn [fst api api_set ops live next started o o_name].
  assert (FR : live s !! next s = None). { destruct (live s !! next s) as [o'|] eqn:Q; [|done]. destruct (oi_live _ _ I _ _ Q) as [Q' _]. lia. }
  split; cbn [fst api api_set ops live next started].
  - done.
  - intros n'. unfold wupd. destruct (decide (n = n')) as [<-|N]; [by rewrite lookup_insert|]. rewrite !lookup_insert_ne by done. apply (oi_ops _ _ I).
  - intros n' e. rewrite lookup_insert_Some. intros [[<- <-]|[N Ee]].
    + exists (next s). cbn. by rewrite lookup_insert.
    + rewrite lookup_insert_ne in Ee by done. destruct (oi_cancel _ _ I n' e Ee) as (j & Q & Lj). exists j. split; [done|]. rewrite lookup_insert_ne; [done|]. intros <-. congruence.
  - intros j o'. rewrite lookup_insert_Some. intros [[<- <-]|[N Lj]].
    + split; [lia|]. exists (Entry o (Some (next s))). cbn. by rewrite lookup_insert.
    + destruct (oi_live _ _ I j o' Lj) as (Q & e & Ee & Qe & Oe). split; [lia|]. exists e. split; [|done]. rewrite !lookup_insert_ne; [done|..]; intros QQ; rewrite <- QQ in Ee; congruence.
  - exists cur'. split; [done|]. split; [done|]. split.
    + intros n'. rewrite (C' _ (view_group_is n')). unfold wupd. destruct (decide (n = n')) as [<-|N]; [by rewrite decide_True|].
      rewrite decide_False; [apply C|]. intros Q. by apply view_group_inj in Q.
    + intros g Hg. rewrite (C' g Hg). destruct (decide (g = view_group n)) as [->|N]; [by exists n|by apply D].
Qed.
Lemma wupd_eq w n v : wupd w n v n = v.
Proof. unfold wupd. by rewrite decide_True. Qed.
Lemma oinv_ext w w' s : (forall n, w n = w' n) -> oinv w s -> oinv w' s.
Proof.
  intros E [I1 I2 I3 I4 (cur & A & B & C & D)]. split; try done.
  - intros n. rewrite <- E. apply I2. - exists cur. split; [done|]. split; [done|]. split; [|done]. intros n. rewrite <- E. apply C.
Qed.
Lemma oinv_upsert w s n cs : oinv w s -> spec_ok n cs ->
  oinv (wupd w n (Some cs)) (upsert_operator mapper builds servable true s n cs).1 /\ (upsert_operator mapper builds servable true s n cs).2 = Done.
Proof.
  intros I SO. unfold upsert_operator, get_oper. pose proof (oinv_ops w s n I) as H. destruct (w n) as [cs'|] eqn:W.
  - destruct H as (i & E & _). rewrite E. cbn. destruct (oinv_delete w s n I) as [I' D]. destruct (delete_operator mapper s n) as [s' out]. cbn in I', D. subst out.
    destruct (oinv_add _ s' n cs I' (wupd_eq _ _ _) SO) as [J Q]. split; [|done]. eapply oinv_ext; [|exact J]. intros n'. unfold wupd. by destruct (decide (n = n')).
  - rewrite H. cbn. by apply oinv_add.
Qed.
Lemma oinv_fail w s n cs : oinv w s ->
  oinv (wupd w n None) (upsert_operator mapper builds servable false s n cs).1 /\ (upsert_operator mapper builds servable false s n cs).2 = Failed.
Proof.
  intros I. unfold upsert_operator, get_oper. pose proof (oinv_ops w s n I) as H. destruct (oinv_delete w s n I) as [I' D].
  destruct (w n) as [cs'|] eqn:W.
  - destruct H as (i & E & _). rewrite E. cbn. destruct (delete_operator mapper s n) as [s' out]. cbn in I', D. subst out. done.
  - rewrite H. cbn. unfold delete_operator in I'. rewrite H in I'. done.
Qed.
Lemma orun_inv h : forall w s, oinv w s -> (forall c, c ∈ h -> match c with Reconcile _ _ _ => True | _ => False end) ->
  (forall c n cs, c ∈ h -> (n, cs) ∈ specs_of c -> spec_ok n cs) ->
  oinv (fun n => fold_left (wanted_step n) h (w n)) (orun mapper builds servable s h).1 /\
  (orun mapper builds servable s h).2 = map (fun c => if succeeds c then Done else Failed) h.
Proof.
  induction h as [|c h IH]; intros w s I HC HS; [done|]. cbn [orun fold_left map].
  assert (HC' := HC c (elem_of_list_here _ _)). destruct c as [n f created| | |]; try done. cbn [ostep].
  assert (X : oinv (fun n' => wanted_step n' (w n') (Reconcile n f created)) (reconcile_op mapper builds servable s n f created).1 /\
    (reconcile_op mapper builds servable s n f created).2 = if succeeds (Reconcile n f created) then Done else Failed).
  { destruct f as [cs| |]; cbn [reconcile_op wanted_step succeeds].
    - destruct created.
      + apply (oinv_upsert w s n cs I). apply (HS (Reconcile n (FSpec cs) true)); left.
      + apply (oinv_fail w s n cs I).
    - apply (oinv_delete w s n I).
    - done. }
  destruct (reconcile_op mapper builds servable s n f created) as [s1 o1]. cbn [fst snd] in X. destruct X as [X ->].
  destruct (IH _ s1 X (fun c H => HC c (elem_of_list_further _ _ _ H)) (fun c n cs H => HS c n cs (elem_of_list_further _ _ _ H))) as [Y Z].
  destruct (orun mapper builds servable s1 h) as [s2 os]. cbn [fst snd] in *. by rewrite Z.
Qed.
Lemma oinv_ready : oinv (fun _ => None) ready.
Proof.
  split; try done. exists (fun _ => []). split; [apply inv_new|]. split; [|done]. intros k x. cbn. by rewrite lookup_empty.
Qed.
End inv.

(** *** Start and AddOperator at the same time *)
Record rinv (r : racer) : Prop := {
  ri_stored : stored_e r = (0 <? add_pc r);
  ri_flag : flag r = (0 <? start_pc r);
  ri_pc : add_pc r <= 3 /\ start_pc r <= 2;
  ri_coll : collected r = true -> stored_e r = true;
  ri_two : add_pc r = 2 -> 0 < start_pc r;
  ri_three : add_pc r = 3 -> runs r = None -> start_pc r = 0 \/ start_pc r = 1 /\ collected r = true;
  ri_done : start_pc r = 2 -> collected r = true -> runs r <> None;
  ri_runs : runs r = if decide (fresh_ctx r = 0) then None else Some 0;
  ri_cancels : cancels r = if decide (fresh_ctx r = 0) then None else Some (Nat.pred (fresh_ctx r));
  ri_errors : errors r = Nat.pred (fresh_ctx r) }.
Lemma race_start_runs r : runs (race_start r) <> None.
Proof. destruct r; cbn. by case_match. Qed.
Lemma rinv0 : rinv racer0.
Proof. split; cbn; try done; lia. Qed.
Lemma rinv_step r w : rinv r -> rinv (race_step r w).
Proof.
  intros [A1 A2 A3 A4 A5 A6 A7 A8 A9 A10]. destruct r as [st fl co ap sp ru ca er fr]; cbn in *. destruct w; cbn.
  - destruct ap as [|[|[|ap]]]; cbn in *.
    + split; cbn; try done; try lia.
    + subst fl. destruct sp as [|sp]; cbn; split; cbn; try done; try lia. all: try (intros _ _; by left).
    + subst ru ca er. destruct (decide (fr = 0)) as [->|N]; split; cbn; try done; try lia.
      all: try (by destruct fr); destruct fr; cbn; lia.
    + split; cbn; done.
  - destruct sp as [|[|sp]]; cbn in *.
    + split; cbn; try done; try lia. all: try (intros -> H; right; subst st; done).
    + subst ru ca er. destruct co; [|split; cbn; try done; try lia; intros Q Q'; destruct (A6 Q Q') as [|[]]; done].
      destruct (decide (fr = 0)) as [->|N]; split; cbn; try done; try lia.
      all: try (by destruct fr); destruct fr; cbn; lia.
    + split; cbn; done.
Qed.
Lemma race_inv ws : rinv (race ws).
Proof.
  unfold race. assert (G : forall r, rinv r -> rinv (foldl race_step r ws)); [|apply G, rinv0]. induction ws as [|w ws IH]; intros r H; [done|]. by apply IH, rinv_step.
Qed.
