(** Retried additions (C22). *)
From Verif Require Import JsonModel ObjModel ZSetModel OpsModel ExecModel PipelineModel ReconcilerModel ZSetSpec OpsSpec GatherSpec ExecSpec JsonSpec CleanSpec PipelineSpec.
From Verif Require Import JsonProofs JsonIdent CleanProofs ZSetProofs ZSetProofs2 OpsProofs OptProofs IncrProofs IncrProofs2 GatherDet ExecMisc ReconcileProofs ObjProofs ConvertProofs TargetProofs PipeProofs PipeProofs2 PipeProofs3 PipeProofs4.

(** ** Writes that may fail *)
Lemma write_all_flaky wr : flaky wr -> forall ds T, NoDup (map (fun d => obj_id (d_obj d)) ds) ->
  forall i, (write_all wr T ds).1 i = T i \/ (write_all wr T ds).1 i = apply_ops T ds i.
Proof.
  intros Hw. induction ds as [|d ds IH]; intros T ND i; cbn [write_all]; [by left|].
  destruct (Hw T d) as [-> | ->]; [by left|]. cbn [map] in ND. apply NoDup_cons in ND as [N ND].
  change (apply_ops T (d :: ds)) with (apply_ops (apply_op T d) ds).
  destruct (IH (apply_op T d) ND i) as [->| ->]; [|by right].
  destruct (decide (i = obj_id (d_obj d))) as [->|Hi].
  - right. symmetry. apply apply_ops_notin. intros H. apply N. by apply elem_of_list_In.
  - left. unfold apply_op. by rewrite decide_False.
Qed.

Section retry.
Context {FF : FloatFmt}.
Variable P : jobj -> bool.
#[local] Hint Extern 0 Docs => exact (json_docs_on P) : typeclass_instances.
Variable sortv : list json -> list json.
Variable target : gvk.
#[local] Notation xs := (@exec_scratch (json_docs_on P) sortv).
#[local] Notation xp := (@exec_process (json_docs_on P) sortv).
#[local] Notation xr := (@exec_run (json_docs_on P) sortv).
#[local] Notation shown := (shown P).
#[local] Notation enc d i := (encapsulate target d i.1 i.2).

(** ** A result of additions only *)
Lemma adds_step y tgt o1 o2 ds tgt' out :
  exact P -> gvk_ok target -> zwf y -> nonneg y ->
  (forall k d i, shown y k d i -> plain i) ->
  (forall k1 k2 d1 d2 i, shown y k1 d1 i -> shown y k2 d2 i -> d1 = d2) ->
  order_ok o1 -> order_ok o2 ->
  convert_zset P o1 target y = Some ds -> reconcile P o2 tgt ds = (tgt', Some out) ->
  NoDup (map (fun d => obj_id (d_obj d)) out)
  /\ forall i, (exists k d, shown y k d i /\ (forall T, apply_ops T out i = Some (enc d i)) /\ held tgt' i = Some (enc d i))
    \/ (~ (exists k d, shown y k d i) /\ (forall T, apply_ops T out i = T i) /\ (plain i -> held tgt' i = held tgt i)).
Proof.
  intros [Hex Hwf] Hg Wy Ny Hp Hu Ho1 Ho2 Ec Er.
  pose proof (convert_zset_in P target o1 y ds Ho1 Wy Ec) as HD.
  assert (Hpos : forall k d i, shown y k d i -> (0 <? zcount y k) = true).
  { intros k d i [Hd _]. destruct (zwf_doc P _ _ _ Wy Hd) as [_ Hn]. specialize (Ny k). apply Z.ltb_lt. lia. }
  assert (Henc : forall k d i, shown y k d i -> obj_id (enc d i) = i /\ obj_copy (enc d i) = enc d i).
  { intros k d i [Hd Hi]. destruct (zwf_doc P _ _ _ Wy Hd) as [Hk _]. destruct (encapsulate_ok target d i (Hwf _ _ Hk) Hg Hi) as (? & _ & _ & ? & _). done. }
  assert (Hraw : Forall raw_delta ds).
  { apply List.Forall_forall. intros x Hx. apply HD in Hx as (k & d & i & Hs & ->). rewrite (Hpos _ _ _ Hs). split; [by left|].
    cbn [d_obj]. destruct (Henc _ _ _ Hs) as [-> _]. by eapply Hp. }
  destruct (reconcile_ok P o2 tgt ds Ho2 Hraw) as (tgt'' & out' & Er' & ND & _ & R1 & R2 & R3 & R4).
  rewrite Er in Er'. injection Er' as <- <-. split; [done|]. intros i.
  assert (Hdel : dels_of i ds = []).
  { apply dels_empty_iff. intros (m & Hm & _). apply HD in Hm as (k & d & i' & Hs & E). rewrite (Hpos _ _ _ Hs) in E. done. }
  assert (HT : touched i ds -> exists k d, shown y k d i).
  { intros (x & Hx & Hi). apply HD in Hx as (k & d & i' & Hs & ->). cbn [d_obj] in Hi. destruct (Henc _ _ _ Hs) as [E _]. rewrite E in Hi. subst i'. eauto. }
  destruct (shown_dec P y i) as [(k & d & Hs)|N].
  - left. exists k, d. split; [done|]. destruct (Henc _ _ _ Hs) as [Eid Ecp].
    assert (Hin0 : In (Delta Added (enc d i)) ds). { apply HD. exists k, d, i. split; [done|]. by rewrite (Hpos _ _ _ Hs). }
    assert (Ti : touched i ds) by (eexists; split; [exact Hin0|done]).
    assert (Ha : last (adds_of i ds) = Some (enc d i)).
    { apply last_all.
      - intros m Hm. apply in_adds in Hm as [Hm Hi]. apply HD in Hm as (k' & d' & i' & Hs' & E). injection E as _ ->.
        destruct (Henc _ _ _ Hs') as [E _]. rewrite E in Hi. subst i'. by rewrite (Hu _ _ _ _ _ Hs Hs').
      - intros E. rewrite adds_empty_iff in E. apply E. eauto. }
    assert (Hact : action (ops_of tgt i ds) = Some (Delta Upserted (enc d i))).
    { unfold action, ops_of. cbn [k_adds k_dels k_existed]. by rewrite Ha, Hdel. }
    destruct (proj2 (R1 i _ (Hp _ _ _ Hs)) (conj Ti Hact)) as [Hin Eid'].
    split.
    + intros T. pose proof (apply_ops_in out T _ ND Hin) as Ht. cbn [d_obj] in Ht. rewrite Eid in Ht. by rewrite Ht.
    + pose proof (R3 _ Hin) as Hh. cbn [d_obj] in Hh. rewrite Eid in Hh. rewrite Hh. unfold effect. cbn [d_type d_obj fmap option_fmap option_map]. by rewrite Ecp.
  - right. split; [done|].
    assert (Nin : ~ In i (map (fun d => obj_id (d_obj d)) out)).
    { intros Hin. apply in_map_iff in Hin as (x & Hx & Hin). destruct (R1 i x) as [R _]; [rewrite <-Hx; by apply R2|]. apply N, HT. by destruct R. }
    split; [intros T; by apply apply_ops_notin|]. intros Hpi. by apply R4.
Qed.

(** Equal counts, equal documents. *)
Lemma zeq_shown (a b : @zset (json_docs_on P)) : exact P -> zwf a -> zwf b -> (forall k : string, zcount a k = zcount b k) -> forall k d i, shown a k d i -> shown b k d i.
Proof.
  intros [Hex _] Wa Wb E k d i [Hd Hi]. destruct (zwf_doc P _ _ _ Wa Hd) as [Hk Hn]. rewrite E in Hn.
  destruct (zwf_nz P b k Wb Hn) as [d' Hd']. destruct (zwf_doc P _ _ _ Wb Hd') as [Hk' _].
  assert (d' = d) as -> by (by eapply Hex). done.
Qed.

(** ** The evaluation of an addition *)
Section added.
Variables (source : gvk) (ps : list (@op (json_docs_on P))) (g g1 : @graph (json_docs_on P)).
Hypothesis Hex : exact P.
Hypothesis Hg : gvk_ok target.
Hypothesis Hlin : forallb (fun p => user_op p && negb (is_nonlinear p)) ps = true.
Hypothesis Hok : Forall op_ok ps.
Hypothesis Hdet : Forall (@op_posdet (json_docs_on P) sortv) ps.
Hypothesis Hg1 : pipeline_new [gvk_kind source] None ps = Some g1.
Hypothesis Hgr : pipeline_graph [gvk_kind source] None ps = Some g.

Lemma lin_user : forallb user_op ps = true.
Proof. clear -Hlin. induction ps as [|p l IH]; [done|]. simpl in *. apply andb_prop in Hlin as [Hp H]. apply andb_prop in Hp as [-> _]. auto. Qed.
Lemma lin_state o i : (xp o g1 i).1 = g1.
Proof. by eapply c14_nojoin. Qed.

(** The result for one input: that of the pipeline as it was declared. *)
Lemma one_result oB o d z y : order_ok oB -> order_ok o -> zwf z -> nonneg z -> get_kind (d_obj d) = gvk_kind source ->
  xp o g1 (step_inputs P [source] d z) = (g1, Some y) ->
  zwf y /\ exists B : @zset (json_docs_on P), xp oB g {[ gvk_kind source := z ]} = (g, Some B) /\ nonneg B /\ forall k : string, zcount y k = zcount B k.
Proof.
  intros HoB Ho Wz Nz Hk E.
  set (oo := (fun V p => match p with _ :: q => o V q | [] => o V [] end) : order).
  assert (Hoo : order_ok oo) by (intros V [|n q] m; apply Ho).
  assert (R : xr oo 0 g1 [step_inputs P [source] d z] = (g1, map Some [y])).
  { cbn [exec_run map]. change (osub oo 0) with o. by rewrite E. }
  assert (Wi : @ins_wf (json_docs_on P) [step_inputs P [source] d z]).
  { constructor; [|constructor]. intros nm x. unfold step_inputs. rewrite lookup_insert_Some. intros [[_ <-]|[_ Hx]]; [done|].
    rewrite empty_inputs_lookup in Hx. case_decide; [injection Hx as <-; apply wf_empty|done]. }
  assert (Ha : @accumulated (json_docs_on P) {[ gvk_kind source := z ]} [gvk_kind source] [step_inputs P [source] d z]).
  { intros nm Hn. apply elem_of_list_singleton in Hn as ->. exists z. split; [apply lookup_singleton|]. split; [done|].
    intros k. unfold total. cbn [column map]. unfold step_inputs. rewrite Hk, lookup_insert. cbn. lia. }
  assert (ND : NoDup [gvk_kind source]) by apply NoDup_singleton.
  destruct (@c13_core_wf (json_docs_on P) sortv [gvk_kind source] None ps g g1 oo [step_inputs P [source] d z] [y] g1 {[ gvk_kind source := z ]} Hgr Hg1) as (B & HB & TB & Wy); try done; [apply lin_user|].
  apply Forall_cons in Wy as [Wy _]. split; [done|].
  destruct (@c13_posdet (json_docs_on P) sortv [gvk_kind source] None ps g g1 oo [step_inputs P [source] d z] [y] g1 {[ gvk_kind source := z ]} oB Hgr Hg1) as (B' & HB' & [WB' TB'] & NB'); try done; [apply lin_user| |by rewrite map_size_singleton|].
  { intros nm x Hx. apply lookup_singleton_Some in Hx as [_ <-]. done. }
  exists B'. split; [done|]. split; [done|]. intros k. rewrite (TB' k). unfold total. cbn. lia.
Qed.

(** The input of an addition does not depend on the caches. *)
Lemma added_input src d src' z : owf (d_obj d) -> d_type d = Added -> convert_delta P src d = (src', Some z) ->
  add_doc zempty (stripped (d_obj d)) 1 = Some z.
Proof. intros _ Ht. unfold convert_delta. rewrite Ht. unfold stripped. destruct (add_doc _ _ _) as [z'|]; [|done]. by intros [= _ <-]. Qed.

(** All attempts at an addition give the same documents. *)
Definition steady (p : pipe P) : Prop := p_graph P p = g1 /\ p_sources P p = [source] /\ p_target P p = target.
Lemma evaluate_steady o p d : steady p -> steady (evaluate P sortv o p d).1.
Proof.
  intros (E1 & E2 & E3). unfold evaluate. destruct (convert_delta P (p_src P p) d) as [src [z|]]; [|done].
  cbv zeta. cbn [set_src p_sources p_graph p_target]. rewrite E1.
  match goal with |- context [xp ?a g1 ?b] => pose proof (lin_state a b) as Eg; destruct (xp a g1 b) as [g' [y|]] end; cbn [fst] in Eg; subst g'; [|done].
  destruct (convert_zset _ _ _ y) as [l|]; [|done]. by destruct (reconcile _ _ _ _).
Qed.
Lemma pipe_run_steady o ds : forall n p, steady p -> steady (pipe_run P sortv o n p ds).1.
Proof.
  induction ds as [|d ds IH]; intros n p H; simpl; [done|].
  pose proof (evaluate_steady (osub o n) p d H) as H1. destruct (evaluate P sortv (osub o n) p d) as [p1 r].
  specialize (IH (S n) p1 H1). by destruct (pipe_run P sortv o (S n) p1 ds).
Qed.
Lemma attempt oB B o p d z0 p' out : order_ok oB -> order_ok o -> steady p -> owf (d_obj d) -> d_type d = Added -> get_kind (d_obj d) = gvk_kind source ->
  add_doc zempty (stripped (d_obj d)) 1 = Some z0 -> xp oB g {[ gvk_kind source := z0 ]} = (g, Some B) ->
  evaluate P sortv o p d = (p', Some out) ->
  steady p' /\ exists y dl, zwf y /\ nonneg y /\ (forall k : string, zcount y k = zcount B k)
    /\ xp (osub o 0) g1 (step_inputs P [source] d z0) = (g1, Some y)
    /\ convert_zset P (osub o 1) target y = Some dl /\ reconcile P (osub o 2) (p_tgt P p) dl = (p_tgt P p', Some out).
Proof.
  intros HoB Ho S W Ht Hk Hz HB E. split; [by (pose proof (evaluate_steady o p d S) as S'; rewrite E in S')|].
  destruct (evaluate_inv _ _ _ _ _ _ _ E) as (src & z & g2 & y & dl & tgt1 & C & X & V & R & ->). destruct S as (E1 & E2 & E3).
  pose proof (added_input _ _ _ _ W Ht C) as Hz'. assert (z = z0) by (by rewrite Hz in Hz'; injection Hz'). subst z.
  rewrite E1, E2 in X. rewrite E3 in V. cbn [p_tgt].
  assert (Eg : g2 = g1). { pose proof (lin_state (osub o 0) (step_inputs P [source] d z0)) as Eg. by rewrite X in Eg. } subst g2.
  destruct (add_doc_spec _ _ _ _ wf_empty Hz) as (Wz & Cz).
  destruct (one_result oB (osub o 0) d z0 y) as (Wy & B' & HB' & NB & CB); auto using osub_ok.
  { intros k. rewrite Cz, zcount_empty. case_decide; lia. }
  rewrite HB in HB'. injection HB' as <-. exists y, dl. split_and!; try done. intros k. rewrite CB. apply NB.
Qed.

(** What every attempt does: it writes the objects by which [T1] differs from [T0]. *)
Definition good_out (T0 T1 : contents) (tgt tgt' : store) (out : list delta) : Prop :=
  NoDup (map (fun d => obj_id (d_obj d)) out)
  /\ forall i, (exists m, T1 i = Some m /\ (forall T, apply_ops T out i = Some m) /\ held tgt' i = Some m)
    \/ (T1 i = T0 i /\ (forall T, apply_ops T out i = T i) /\ (plain i -> held tgt' i = held tgt i)).
Lemma tries o d T0 T1 : order_ok o -> d_type d = Added ->
  (forall o p p' out, order_ok o -> steady p -> evaluate P sortv o p d = (p', Some out) -> steady p' /\ good_out T0 T1 (p_tgt P p) (p_tgt P p') out) ->
  forall wrs n p T p' outs, Forall flaky wrs -> steady p -> (forall i, T i = T0 i \/ T i = T1 i) ->
  (forall i, plain i -> held (p_tgt P p) i = T0 i \/ held (p_tgt P p) i = T1 i) ->
  pipe_run P sortv o n p (replicate (length wrs) d ++ [d]) = (p', map Some outs) ->
  exists T', (inc_run P sortv o n (p, T) (map (fun wr => (d, wr)) wrs ++ [(d, write_ok)])).1 = (p', T')
    /\ (forall i, T' i = T1 i) /\ agree (p_tgt P p') T1.
Proof.
  intros Ho Ht HA. induction wrs as [|wr wrs IH]; intros n p T p' outs Fw HS HT Hh R.
  - cbn [length replicate app map] in *. cbn [inc_run pipe_run] in *. unfold inc_reconcile. rewrite Ht.
    destruct (evaluate P sortv (osub o n) p d) as [p1 r] eqn:E. destruct outs as [|out [|? ?]]; try done. injection R as -> ->.
    destruct (HA _ _ _ _ (osub_ok o n Ho) HS E) as [S1 [ND G]]. rewrite write_all_ok. eexists. split; [reflexivity|]. split.
    + intros i. destruct (G i) as [(m & -> & -> & _)|(E1 & -> & _)]; [done|]. destruct (HT i) as [-> | ->]; done.
    + intros i Hp. destruct (G i) as [(m & -> & _ & ->)|(E1 & _ & E2)]; [done|]. rewrite (E2 Hp). destruct (Hh i Hp) as [-> | ->]; done.
  - cbn [length replicate app map] in *. cbn [inc_run pipe_run] in *. unfold inc_reconcile. rewrite Ht. apply Forall_cons in Fw as [Fw Fws].
    destruct (evaluate P sortv (osub o n) p d) as [p1 r] eqn:E. destruct (pipe_run P sortv o (S n) p1 _) as [p2 rs] eqn:E2.
    destruct outs as [|out outs]; [done|]. injection R as -> -> ->.
    destruct (HA _ _ _ _ (osub_ok o n Ho) HS E) as [S1 [ND G]].
    pose proof (write_all_flaky wr Fw out T ND) as HW. destruct (write_all wr T out) as [T2 ok]. cbn [fst] in HW.
    destruct (IH (S n) p1 T2 p' outs Fws S1) as (T' & E3 & E4 & E5).
    + intros i. destruct (HW i) as [-> | ->]; [apply HT|]. destruct (G i) as [(m & -> & -> & _)|(E1 & -> & _)]; [by right|apply HT].
    + intros i Hp. destruct (G i) as [(m & -> & _ & ->)|(E1 & _ & E6)]; [by right|]. rewrite (E6 Hp). by apply Hh.
    + exact E2.
    + exists T'. split; [|done]. destruct (inc_run P sortv o (S n) (p1, T2) _) as [st oks]. exact E3.
Qed.
Lemma pipe_run_snoc o ds d : forall n p p1 outs p2 out, pipe_run P sortv o n p ds = (p1, map Some outs) -> evaluate P sortv (osub o (n + length ds)) p1 d = (p2, Some out) ->
  pipe_run P sortv o n p (ds ++ [d]) = (p2, map Some (outs ++ [out])).
Proof.
  induction ds as [|e ds IH]; intros n p p1 outs p2 out R E; cbn [app pipe_run length] in *.
  - injection R as <- R. destruct outs; [|done]. rewrite Nat.add_0_r in E. by rewrite E.
  - destruct (evaluate P sortv (osub o n) p e) as [p3 r]. destruct (pipe_run P sortv o (S n) p3 ds) as [p4 rs] eqn:E4.
    destruct outs as [|out0 outs]; [done|]. injection R as -> -> ->. rewrite Nat.add_succ_r in E. by rewrite (IH (S n) p3 p1 outs p2 out E4 E).
Qed.
Lemma xr_steady o ins : forall n, (xr o n g1 ins).1 = g1 /\ forall i, (xr o n g1 (ins ++ [i])).2 = (xr o n g1 ins).2 ++ [(xp (osub o (n + length ins)) g1 i).2].
Proof.
  induction ins as [|j ins IH]; intros n; cbn [app exec_run length].
  - split; [done|]. intros i. rewrite Nat.add_0_r. by destruct (xp (osub o n) g1 i).
  - pose proof (lin_state (osub o n) j) as Eg. destruct (xp (osub o n) g1 j) as [g2 r]. cbn [fst] in Eg. subst g2.
    destruct (IH (S n)) as [I1 I2]. split.
    + destruct (xr o (S n) g1 ins). exact I1.
    + intros i. specialize (I2 i). rewrite Nat.add_succ_r. destruct (xr o (S n) g1 ins), (xr o (S n) g1 (ins ++ [i])). cbn [snd app] in *. by rewrite I2.
Qed.

Lemma c22_added p o ds d wrs p' outs :
  pipe_new P target [source] None ps = Some p -> order_ok o -> history_ok P [source] ∅ (ds ++ [d]) -> Forall queued ds -> d_type d = Added -> Forall flaky wrs ->
  pipe_run P sortv o 0 p (ds ++ d :: replicate (length wrs) d) = (p', map Some outs) ->
  (forall pre post acc B, ds ++ [d] = pre ++ post -> inputs_of P (after pre) [gvk_kind source] acc -> xs g acc B -> functional P B) ->
  let st := (inc_run P sortv o 0 (p, no_objects) (map (fun d => (d, write_ok)) ds ++ map (fun wr => (d, wr)) wrs ++ [(d, write_ok)])).1 in
  st.1 = p' /\ exists acc B, inputs_of P (after (ds ++ [d])) [gvk_kind source] acc /\ xs g acc B
    /\ shows P target B st.2 /\ agree (p_tgt P p') st.2.
Proof.
  intros Hp Ho HH Hq Ht Fw R HF.
  destruct (pipe_run_app P sortv o ds 0 p _ _ _ R) as (p1 & R1 & R2). cbn [plus] in R2.
  set (outs1 := take (length ds) outs) in *.
  assert (St0 : steady p). { unfold pipe_new in Hp. cbn [map] in Hp. rewrite Hg1 in Hp. injection Hp as <-. done. }
  assert (St1 : steady p1). { pose proof (pipe_run_steady o ds 0 p St0) as S. by rewrite R1 in S. }
  destruct (evaluate P sortv (osub o (length ds)) p1 d) as [p2 r] eqn:E2.
  assert (exists out0, r = Some out0) as [out0 ->].
  { cbn [pipe_run] in R2. rewrite E2 in R2. destruct (pipe_run P sortv o _ p2 _) as [p3 rs]. destruct (drop (length ds) outs) as [|x l]; [done|]. injection R2 as _ -> _. by exists x. }
  pose proof (pipe_run_snoc o ds d 0 p p1 outs1 p2 out0 R1 E2) as R3.
  destruct (history_app P [source] ds ∅ [d]) as [HA _]. destruct (HA HH) as [HH1 HH2]. clear HA.
  cbn [history_ok] in HH2. destruct HH2 as [(W & _ & _ & Hsrc & [gv Hgv] & _) _].
  assert (Hk : get_kind (d_obj d) = gvk_kind source). { apply elem_of_list_singleton in Hsrc. rewrite <-Hsrc. unfold get_gvk. rewrite Hgv. by destruct gv. }
  pose proof (lin_user) as Hu. assert (ND1 : NoDup (map gvk_kind [source])) by apply NoDup_singleton.
  assert (Hj : forall jev : @join_evaluator (json_docs_on P), None = Some jev -> jev_ok jev) by done.
  (* the objects before and after *)
  destruct (c19_core P sortv target [source] None ps g p o (ds ++ [d]) p2 (outs1 ++ [out0])) as (acc1 & B1 & I1 & X1 & S1 & A1); try done.
  destruct (c19_core P sortv target [source] None ps g p o ds p1 outs1) as (acc0 & B0 & I0 & X0 & S0 & A0); try done.
  { intros pre post acc B -> . apply (HF pre (post ++ [d])). by rewrite app_assoc. }
  set (T0 := apply_ops no_objects (concat outs1)) in *.
  assert (ET : apply_ops no_objects (concat (outs1 ++ [out0])) = apply_ops T0 out0).
  { rewrite concat_app. cbn [concat]. rewrite app_nil_r. unfold T0, apply_ops. by rewrite foldl_app. }
  rewrite ET in S1, A1. set (T1 := apply_ops T0 out0) in *.
  (* the input *)
  destruct (evaluate_inv _ _ _ _ _ _ _ E2) as (src & z0 & g2 & y0 & dl & tgt1 & C & X & V & Rc & _).
  pose proof (added_input _ _ _ _ W Ht C) as Hz. clear C. destruct St1 as (G1 & G2 & G3). rewrite G1, G2 in X.
  assert (g2 = g1) as ->. { pose proof (lin_state (osub (osub o (length ds)) 0) (step_inputs P [source] d z0)) as Eg. by rewrite X in Eg. }
  destruct (add_doc_spec _ _ _ _ wf_empty Hz) as (Wz & Cz).
  destruct (one_result o (osub (osub o (length ds)) 0) d z0 y0) as (Wy & BB & HB & NB & CB); auto using osub_ok.
  { intros k. rewrite Cz, zcount_empty. case_decide; lia. }
  (* how it changes the result *)
  destruct (pipe_prefixes_full P sortv target [source] None ps g p o (ds ++ [d]) p2 (outs1 ++ [out0])) as (zs & ys & CR & XR & _ & Lz & Ly & HP); try done.
  assert (EL : exists ys1, ys = ys1 ++ [y0] /\ length ys1 = length ds).
  { destruct (exists_last (l := zs)) as (zs1 & z1 & ->). { intros ->. rewrite app_length in Lz. simpl in Lz. lia. }
    rewrite !app_length in Lz. simpl in Lz. assert (Lz1 : length zs1 = length ds) by lia.
    rewrite zip_with_app in XR by done. cbn [zip_with] in XR. rewrite (proj1 St0) in XR.
    pose proof (proj2 (xr_steady (sub_exec P o) (zip_with (step_inputs P [source]) ds zs1) 0) (step_inputs P [source] d z1)) as XL.
    rewrite XR in XL. cbn [snd] in XL. rewrite zip_with_length_l_eq in XL by done. cbn [plus] in XL. rewrite sub_exec_osub in XL.
    assert (z1 = z0) as ->.
    { clear -CR Hz Ht W Lz1.
      assert (H : forall l zs1 src srcf, length zs1 = length l -> convert_run P src (l ++ [d]) = (srcf, map Some (zs1 ++ [z1])) -> z1 = z0); [|by eapply H].
      induction l as [|e l IH]; intros zs2 src srcf L E; destruct zs2 as [|z2 zs2]; try done; cbn [app convert_run map] in E.
      - destruct (convert_delta P src d) as [src1 r] eqn:E1. injection E as _ ->. pose proof (added_input _ _ _ _ W Ht E1) as H. rewrite Hz in H. by injection H.
      - destruct (convert_delta P src e) as [src1 r] eqn:E1. destruct (convert_run P src1 (l ++ [d])) as [src2 rs] eqn:E3. injection E as _ _ ->.
        eapply (IH zs2); [by injection L|exact E3]. }
    rewrite X in XL. cbn [snd] in XL. exists (take (length ds) ys).
    destruct (exists_last (l := ys)) as (ys1 & y1 & ->). { intros ->. rewrite app_length in Ly. simpl in Ly. lia. }
    rewrite !app_length in Ly. simpl in Ly. rewrite map_app in XL. cbn [map] in XL. apply app_inj_2 in XL as [_ XL]; [|done]. injection XL as ->.
    rewrite take_app_alt by lia. split; [done|lia]. }
  destruct EL as (ys1 & -> & Ly1).
  assert (HC : exists B0' B1' : @zset (json_docs_on P), functional P B0' /\ functional P B1' /\ zwf B0' /\ zwf B1' /\ forall k : string, zcount B1' k = zcount B0' k + zcount y0 k).
  { destruct (HP (length ds)) as (a0 & b0 & Ia & Xa & [Wa Ta] & _); [rewrite app_length; lia|].
    destruct (HP (S (length ds))) as (a1 & b1 & Ib & Xb & [Wb Tb] & _); [rewrite app_length; simpl; lia|].
    rewrite take_app_alt in Ia by done. rewrite take_app_alt in Ta by done.
    rewrite take_ge in Ib by (rewrite app_length; simpl; lia). rewrite take_ge in Tb by (rewrite app_length; simpl; lia).
    exists b0, b1. split_and!; try done.
    - by apply (HF ds [d] a0).
    - apply (HF (ds ++ [d]) [] a1); [by rewrite app_nil_r|done|done].
    - intros k. rewrite (Ta k), (Tb k). unfold total. rewrite lsum_app. cbn. lia. }
  destruct HC as (b0 & b1 & F0 & F1 & W0 & W1 & HC).
  assert (Hcount : forall (B : @zset (json_docs_on P)), functional P B -> zwf B -> forall k : string, zcount B k = 0 \/ zcount B k = 1).
  { intros B [F _] WB k. destruct (decide (zcount B k = 0)) as [|Hn]; [by left|right]. destruct (zwf_nz P _ _ WB Hn) as [e He]. by apply (F k e He). }
  assert (Hy : forall k e i, shown y0 k e i -> shown b1 k e i).
  { intros k e i [He Hi]. destruct (zwf_doc P _ _ _ Wy He) as [Hke Hn]. pose proof (HC k) as Hc. pose proof (NB k) as Hb. rewrite <-CB in Hb.
    destruct (Hcount b0 F0 W0 k), (Hcount b1 F1 W1 k); try lia.
    destruct (zwf_nz P b1 k W1) as [e' He']; [lia|]. destruct (zwf_doc P _ _ _ W1 He') as [Hk' _].
    assert (e' = e) as -> by (by eapply (proj1 Hex)). done. }
  assert (Hplain : forall k e i, shown y0 k e i -> plain i).
  { intros k e i Hs. destruct (Hy _ _ _ Hs) as [He Hi]. destruct (proj1 F1 k e He) as (_ & i' & Hi' & Hpl). assert (i' = i) as -> by congruence. done. }
  assert (Huniq : forall k1 k2 d1 d2 i, shown y0 k1 d1 i -> shown y0 k2 d2 i -> d1 = d2).
  { intros k1 k2 d1 d2 i Hs1 Hs2. destruct (Hy _ _ _ Hs1) as [He1 Hi1], (Hy _ _ _ Hs2) as [He2 Hi2].
    assert (k1 = k2) as -> by (by eapply (proj2 F1)). congruence. }
  (* every attempt *)
  assert (HG0 : forall i, (exists k e, shown y0 k e i /\ T1 i = Some (enc e i)) \/ (~ (exists k e, shown y0 k e i) /\ T1 i = T0 i)).
  { destruct (attempt o BB (osub o (length ds)) p1 d z0 p2 out0) as (_ & y & dl' & Wy' & Ny' & Cy' & Xy & V' & R'); auto using osub_ok. { done. }
    rewrite X in Xy. injection Xy as <-.
    destruct (adds_step y0 _ _ _ _ _ _ Hex Hg Wy' Ny' Hplain Huniq (osub_ok _ 1 (osub_ok _ (length ds) Ho)) (osub_ok _ 2 (osub_ok _ (length ds) Ho)) V' R') as [_ G].
    intros i. destruct (G i) as [(k & e & Hs & E & _)|(N & E & _)]; [left; exists k, e; split; [done|apply E]|right; split; [done|apply E]]. }
  assert (HA : forall o p p' out, order_ok o -> steady p -> evaluate P sortv o p d = (p', Some out) -> steady p' /\ good_out T0 T1 (p_tgt P p) (p_tgt P p') out).
  { intros o' q q' out Ho' Sq Eq. destruct (attempt o BB o' q d z0 q' out) as (Sq' & y & dl' & Wy' & Ny' & Cy' & Xy & V' & R'); auto.
    split; [done|].
    assert (Hsh : forall k e i, shown y k e i -> shown y0 k e i) by (apply zeq_shown; auto; intros k; by rewrite Cy', CB).
    assert (Hsh' : forall k e i, shown y0 k e i -> shown y k e i) by (apply zeq_shown; auto; intros k; by rewrite Cy', CB).
    assert (Hpl' : forall k e i, shown y k e i -> plain i) by (intros; by eapply Hplain, Hsh).
    assert (Hun' : forall k1 k2 d1 d2 i, shown y k1 d1 i -> shown y k2 d2 i -> d1 = d2) by (intros; by eapply Huniq; apply Hsh).
    destruct (adds_step y _ _ _ _ _ _ Hex Hg Wy' Ny' Hpl' Hun' (osub_ok _ 1 Ho') (osub_ok _ 2 Ho') V' R') as [ND G].
    split; [done|]. intros i. destruct (G i) as [(k & e & Hs & E & Eh)|(N & E & Eh)]; destruct (HG0 i) as [(k' & e' & Hs' & E')|(N' & E')].
    - left. exists (enc e i). rewrite E'. rewrite (Huniq _ _ _ _ _ Hs' (Hsh _ _ _ Hs)). done.
    - exfalso. apply N'. exists k, e. by apply Hsh.
    - exfalso. apply N. exists k', e'. by apply Hsh'.
    - right. done. }
  (* the run *)
  assert (ER : d :: replicate (length wrs) d = replicate (length wrs) d ++ [d]). { by rewrite <-replicate_cons_app. }
  rewrite ER in R2.
  destruct (tries o d T0 T1 Ho Ht HA wrs (length ds) p1 T0 p' (drop (length ds) outs) Fw (conj G1 (conj G2 G3))) as (T' & E3 & E4 & E5); [by left| |exact R2|].
  { intros i Hpi. left. by apply A0. }
  cbv zeta. rewrite (inc_run_ok P sortv o ds 0 p no_objects p1 outs1 Hq R1). cbn [plus]. fold T0.
  destruct (inc_run P sortv o (length ds) (p1, T0) _) as [st oks]. cbn [fst] in E3. subst st. cbn [fst snd]. split; [done|].
  exists acc1, B1. split_and!; [done|done| |].
  - intros i m. rewrite E4. apply S1.
  - intros i Hpi. rewrite E4. by apply E5.
Qed.
End added.
End retry.
