(** Proofs about the repair of targets. *)
From Verif Require Import JsonModel ObjModel ZSetModel OpsModel ExecModel PipelineModel ZSetSpec OpsSpec GatherSpec ExecSpec JsonSpec CleanSpec PipelineSpec HealSpec.
From Verif Require Import JsonProofs JsonIdent CleanProofs ZSetProofs ZSetProofs2 OpsProofs StreamProofs JoinProofs ChainProofs2 OptProofs IncrProofs IncrProofs2 GatherProofs GatherDet ExecMisc ReconcileProofs ObjProofs ConvertProofs TargetProofs PipeProofs PipeProofs2 PipeProofs3 SyncProofs.

(** Where the documents of a projection come from. *)
Lemma linear_from {DD : Docs} f ev o A B k d : (forall a b k, key a = Some k -> key b = Some k -> a = b) -> linear_ext f ev -> order_ok o -> zwf A -> f o A = Some B ->
  key d = Some k -> zcount B k <> 0 -> exists d0 l, ev d0 = Some l /\ In d l.
Proof.
  intros Hex L Ho WA E Hk Hn. destruct (L o A Ho WA) as [_ HB]. destruct (HB B E) as [WB CB]. rewrite (CB k) in Hn. unfold zsum in *.
  set (g := fun kd : ident * doc => zcount A kd.1 * occ k (ev_out ev kd.2)) in *.
  assert (exists x, In x (map_to_list (docs A)) /\ g x <> 0) as ([k0 d0] & _ & Hg).
  { clear -Hn. induction (map_to_list (docs A)) as [|x l IH]; [done|]. simpl in Hn. destruct (decide (g x = 0)) as [E0|E0].
    - destruct IH as (y & ? & ?); [change (g x + lsum g l <> 0) in Hn; lia|]. exists y. split; [by right|done].
    - exists x. split; [by left|done]. }
  assert (occ k (ev_out ev d0) <> 0) as Ho' by (unfold g in Hg; simpl in Hg; lia). unfold ev_out in Ho'. destruct (ev d0) as [l|] eqn:El; [|done]. simpl in Ho'.
  exists d0, l. split; [done|]. clear - Ho' Hk Hex. induction l as [|x l IH]; [done|]. unfold occ in *. simpl in Ho'. case_decide as Hx; [left; by eapply Hex|right; apply IH; lia].
Qed.

Section heal.
Context {FF : FloatFmt}.
Variable P : jobj -> bool.
Variable sortv : list json -> list json.
#[local] Hint Extern 0 Docs => exact (json_docs_on P) : typeclass_instances.
Local Notation xs := (exec_scratch (DD := json_docs_on P) sortv).
Local Notation xp := (exec_process (DD := json_docs_on P) sortv).

(** The names in the operations of one step: those for which the two results differ. *)
Lemma step_ids target B0 B1 (y : @zset (json_docs_on P)) tgt T o1 o2 ds tgt' out :
  exact P -> gvk_ok target -> zwf B0 -> zwf B1 -> zwf y -> functional P B0 -> functional P B1 ->
  (forall k : string, zcount B1 k = zcount B0 k + zcount y k) ->
  order_ok o1 -> order_ok o2 -> shows P target B0 T -> agree tgt T ->
  convert_zset P o1 target y = Some ds -> reconcile P o2 tgt ds = (tgt', Some out) ->
  NoDup (map (fun d => obj_id (d_obj d)) out) /\ forall i,
  (exists (k : string) d, shown P B1 k d i /\ shown P B0 k d i /\ ~ In i (map (fun d => obj_id (d_obj d)) out))
  \/ (~ (exists (k : string) d, shown P B1 k d i) /\ ~ (exists (k : string) d, shown P B0 k d i) /\ ~ In i (map (fun d => obj_id (d_obj d)) out))
  \/ (In i (map (fun d => obj_id (d_obj d)) out) /\ ((exists (k : string) d, shown P B1 k d i /\ zcount B0 k = 0) \/ (~ (exists (k : string) d, shown P B1 k d i) /\ exists (k : string) d, shown P B0 k d i))).
Proof.
  intros [Hex Hwf] Hg W0 W1 Wy F0 F1 HC Ho1 Ho2 S0 A0 Ec Er.
  pose proof (convert_zset_in P target o1 y ds Ho1 Wy Ec) as HD.
  assert (Hcount0 : forall k : string, zcount B0 k = 0 \/ zcount B0 k = 1).
  { intros k. destruct (decide (zcount B0 k = 0)) as [|Hn]; [by left|right]. destruct (zwf_nz P _ _ W0 Hn) as [d Hd]. by apply (proj1 F0 k d Hd). }
  assert (Hcount1 : forall k : string, zcount B1 k = 0 \/ zcount B1 k = 1).
  { intros k. destruct (decide (zcount B1 k = 0)) as [|Hn]; [by left|right]. destruct (zwf_nz P _ _ W1 Hn) as [d Hd]. by apply (proj1 F1 k d Hd). }
  (* the documents of the delta are those of one of the results *)
  assert (Hy : forall (k : string) d i, shown P y k d i ->
     (zcount y k = 1 /\ zcount B0 k = 0 /\ shown P B1 k d i) \/ (zcount y k = -1 /\ zcount B1 k = 0 /\ shown P B0 k d i)).
  { intros k d i [Hd Hi]. destruct (zwf_doc P _ _ _ Wy Hd) as [Hk Hnz]. specialize (HC k).
    destruct (Hcount0 k) as [C0|C0], (Hcount1 k) as [C1|C1]; try lia.
    - left. split_and!; [lia|done|]. destruct (zwf_nz P B1 k W1) as [d' Hd']; [lia|].
      destruct (zwf_doc P _ _ _ W1 Hd') as [Hk' _]. assert (d' = d) by (by eapply Hex). subst d'. done.
    - right. split_and!; [lia|done|]. destruct (zwf_nz P B0 k W0) as [d' Hd']; [lia|].
      destruct (zwf_doc P _ _ _ W0 Hd') as [Hk' _]. assert (d' = d) by (by eapply Hex). subst d'. done. }
  assert (Hplain : forall B, zwf B -> functional P B -> forall (k : string) d i, shown P B k d i -> plain i /\ obj_id (encapsulate target d i.1 i.2) = i /\ obj_copy (encapsulate target d i.1 i.2) = encapsulate target d i.1 i.2).
  { intros B W [F _] k d i [Hd Hi]. destruct (zwf_doc P _ _ _ W Hd) as [Hk _].
    destruct (F k d Hd) as (_ & i' & Hi' & Hp). assert (i' = i) by congruence. subst i'.
    destruct (encapsulate_ok target d i (Hwf _ _ Hk) Hg Hi) as (? & _ & _ & ? & _). done. }
  assert (Huniq : forall B, functional P B -> forall (k1 k2 : string) d1 d2 i, shown P B k1 d1 i -> shown P B k2 d2 i -> k1 = k2 /\ d1 = d2).
  { intros B [_ F] k1 k2 d1 d2 i [H1 H2] [H3 H4]. assert (k1 = k2) by (by eapply F). subst k2. split; [done|congruence]. }
  assert (Hraw : Forall raw_delta ds).
  { apply List.Forall_forall. intros x Hx. apply HD in Hx as (k & d & i & Hs & ->). split; [simpl; destruct (0 <? zcount y k); auto|].
    simpl. destruct (Hy k d i Hs) as [(_ & _ & Hs')|(_ & _ & Hs')]; [destruct (Hplain B1 W1 F1 k d i Hs') as (? & -> & _)|destruct (Hplain B0 W0 F0 k d i Hs') as (? & -> & _)]; done. }
  destruct (reconcile_ok P o2 tgt ds Ho2 Hraw) as (tgt'' & out' & Er' & ND & _ & R1 & R2 & R3 & R4).
  rewrite Er in Er'. injection Er' as <- <-.
  (* what is added and deleted *)
  assert (HA : forall m i, In (Delta Added m) ds /\ obj_id m = i <-> exists (k : string) d, shown P B1 k d i /\ zcount B0 k = 0 /\ m = encapsulate target d i.1 i.2).
  { intros m i. split.
    - intros [Hm Hid]. apply HD in Hm as (k & d & i' & Hs & E). injection E as E ->.
      destruct (Hy k d i' Hs) as [(C & C0 & Hs')|(C & C0 & Hs')]; rewrite C in E; [|done].
      destruct (Hplain B1 W1 F1 k d i' Hs') as (_ & E' & _). rewrite E' in Hid. subst i'. by exists k, d.
    - intros (k & d & Hs & C0 & ->). destruct (Hplain B1 W1 F1 k d i Hs) as (_ & E' & _). split; [|done].
      apply HD. destruct Hs as [Hd Hi]. destruct (zwf_doc P _ _ _ W1 Hd) as [Hk Hnz].
      assert (Cy : zcount y k = 1). { specialize (HC k). destruct (Hcount1 k); lia. }
      destruct (zwf_nz P y k Wy) as [d' Hd']; [lia|]. destruct (zwf_doc P _ _ _ Wy Hd') as [Hk' _].
      assert (d' = d) by (by eapply Hex). subst d'. exists k, d, i. split; [done|]. by rewrite Cy. }
  assert (HDel : forall m i, In (Delta Deleted m) ds /\ obj_id m = i <-> exists (k : string) d, shown P B0 k d i /\ zcount B1 k = 0 /\ m = encapsulate target d i.1 i.2).
  { intros m i. split.
    - intros [Hm Hid]. apply HD in Hm as (k & d & i' & Hs & E). injection E as E ->.
      destruct (Hy k d i' Hs) as [(C & C0 & Hs')|(C & C0 & Hs')]; rewrite C in E; [done|].
      destruct (Hplain B0 W0 F0 k d i' Hs') as (_ & E' & _). rewrite E' in Hid. subst i'. by exists k, d.
    - intros (k & d & Hs & C0 & ->). destruct (Hplain B0 W0 F0 k d i Hs) as (_ & E' & _). split; [|done].
      apply HD. destruct Hs as [Hd Hi]. destruct (zwf_doc P _ _ _ W0 Hd) as [Hk Hnz].
      assert (Cy : zcount y k = -1). { specialize (HC k). destruct (Hcount0 k); lia. }
      destruct (zwf_nz P y k Wy) as [d' Hd']; [lia|]. destruct (zwf_doc P _ _ _ Wy Hd') as [Hk' _].
      assert (d' = d) by (by eapply Hex). subst d'. exists k, d, i. split; [done|]. by rewrite Cy. }
  assert (HT : forall i, touched i ds <-> (exists m, In (Delta Added m) ds /\ obj_id m = i) \/ (exists m, In (Delta Deleted m) ds /\ obj_id m = i)).
  { intros i. split; [|intros [(m & Hm & Hi)|(m & Hm & Hi)]; eexists; split; [exact Hm|done|exact Hm|done]].
    intros ([t m] & Hm & Hi). rewrite Forall_forall in Hraw. pose proof Hm as Hm'. apply elem_of_list_In in Hm'. destruct (Hraw _ Hm') as [[E|E] _]; simpl in E; subst t; eauto. }
  split; [exact ND|]. intros i.
  assert (Hsame : ~ touched i ds -> ~ In i (map (fun d => obj_id (d_obj d)) out)).
  { intros N Hin. apply in_map_iff in Hin as (x & Hx & Hin). destruct (R1 i x) as [R _]; [rewrite <-Hx; by apply R2|]. by destruct R. }
  destruct (shown_dec P B1 i) as [(k & d & Hs)|N1].
  - destruct (Hplain B1 W1 F1 k d i Hs) as (Hp & Eid & Ecp). destruct (Hcount0 k) as [C0|C0].
    + right. right. split; [|left; by exists k, d].
      assert (Ha : last (adds_of i ds) = Some (encapsulate target d i.1 i.2)).
      { apply last_all.
        - intros m Hm. apply in_adds in Hm. apply HA in Hm as (k' & d' & Hs' & _ & ->). by destruct (Huniq B1 F1 k k' d d' i Hs Hs') as [_ ->].
        - intros E. rewrite adds_empty_iff in E. apply E. eexists. apply HA. by exists k, d. }
      assert (Hact : action (ops_of tgt i ds) = Some (Delta Upserted (encapsulate target d i.1 i.2))).
      { unfold action, ops_of. cbn [k_adds k_dels k_existed]. rewrite Ha. destruct (head (dels_of i ds)) as [m|] eqn:Eh; [|done].
        rewrite bool_decide_eq_true_2; [done|]. rewrite A0 by done. apply head_In, in_dels, HDel in Eh as (k' & d' & Hs' & _ & _).
        eexists. apply S0. exists k', d'. destruct Hs'. split_and!; done. }
      assert (Ti : touched i ds). { apply HT. left. eexists. apply HA. by exists k, d. }
      destruct (proj2 (R1 i _ Hp) (conj Ti Hact)) as [Hin Eid']. apply in_map_iff. by eexists.
    + left. assert (Hs0 : shown P B0 k d i).
      { destruct (zwf_nz P B0 k W0) as [d' Hd']; [lia|]. destruct (zwf_doc P _ _ _ W0 Hd') as [Hk' _]. destruct Hs as [Hd Hi].
        destruct (zwf_doc P _ _ _ W1 Hd) as [Hk Hnz1]. assert (d' = d) by (by eapply Hex). subst d'. done. }
      assert (C1 : zcount B1 k <> 0) by (destruct Hs; by eapply zwf_doc).
      exists k, d. split; [done|]. split; [done|]. apply Hsame.
      rewrite HT. intros [(m & Hm)|(m & Hm)].
      * apply HA in Hm as (k' & d' & Hs' & C & _). destruct (Huniq B1 F1 k k' d d' i Hs Hs') as [-> _]. lia.
      * apply HDel in Hm as (k' & d' & Hs' & C & _). destruct (Huniq B0 F0 k k' d d' i Hs0 Hs') as [-> _]. lia.
  - right. destruct (shown_dec P B0 i) as [(k & d & Hs)|N0].
    + right. split; [|right; split; [done|by exists k, d]]. destruct (Hplain B0 W0 F0 k d i Hs) as (Hp & Eid & Ecp).
      assert (C1 : zcount B1 k = 0).
      { destruct (decide (zcount B1 k = 0)); [done|]. exfalso. apply N1. destruct (zwf_nz P B1 k W1) as [d' Hd']; [done|].
        destruct (zwf_doc P _ _ _ W1 Hd') as [Hk' _]. destruct Hs as [Hd Hi]. destruct (zwf_doc P _ _ _ W0 Hd) as [Hk _].
        assert (d' = d) by (by eapply Hex). subst d'. by exists k, d. }
      assert (Hdel : exists m, In (Delta Deleted m) ds /\ obj_id m = i). { eexists. apply HDel. by exists k, d. }
      assert (Ha : adds_of i ds = []).
      { apply adds_empty_iff. intros (m & Hm). apply HA in Hm as (k' & d' & Hs' & _). apply N1. eauto. }
      assert (exists m, head (dels_of i ds) = Some m) as [m Hm].
      { destruct (dels_of i ds) as [|m l] eqn:E; [|by exists m]. rewrite dels_empty_iff in E. done. }
      assert (Hact : action (ops_of tgt i ds) = Some (Delta Deleted m)).
      { unfold action, ops_of. cbn [k_adds k_dels k_existed]. rewrite Ha, Hm. simpl.
        rewrite bool_decide_eq_true_2; [done|]. rewrite A0 by done. eexists. apply S0. exists k, d. destruct Hs. split_and!; done. }
      assert (Ti : touched i ds). { apply HT. by right. }
      destruct (proj2 (R1 i _ Hp) (conj Ti Hact)) as [Hin Eid']. apply in_map_iff. by eexists.
    + left. split; [done|]. split; [done|]. apply Hsame. rewrite HT. intros [(m & Hm)|(m & Hm)].
      * apply HA in Hm as (k' & d' & Hs' & _). apply N1. eauto.
      * apply HDel in Hm as (k' & d' & Hs' & _). apply N0. eauto.
Qed.

(** What operations do to one object does not depend on the rest. *)
Lemma ops_elsewhere out : forall T T' i, (In i (map (fun d => obj_id (d_obj d)) out) -> apply_ops T out i = apply_ops T' out i) /\ (~ In i (map (fun d => obj_id (d_obj d)) out) -> apply_ops T out i = T i).
Proof.
  unfold apply_ops. induction out as [|d out IH]; intros T T' i; [done|]. cbn [map foldl]. destruct (IH (apply_op T d) (apply_op T' d) i) as [H1 H2]. split.
  - intros [<-|Hi]; [|by apply H1]. destruct (List.in_dec (fun a b : oname => decide (a = b)) (obj_id (d_obj d)) (map (fun d => obj_id (d_obj d)) out)) as [Hi|Hi]; [by apply H1|].
    rewrite H2 by done. destruct (IH (apply_op T' d) (apply_op T' d) (obj_id (d_obj d))) as [_ H2']. rewrite H2' by done. unfold apply_op. by rewrite !decide_True by done.
  - intros Hi. rewrite H2 by (intros Hn; apply Hi; by right). unfold apply_op. rewrite decide_False; [done|]. intros ->. apply Hi. by left.
Qed.

Lemma sync_repairs target sources join ps g p0 p o ds p' out :
  exact P -> gvk_ok target -> sources <> [] -> NoDup (map gvk_kind sources) ->
  forallb basic_op ps = true -> Forall op_ok ps -> (forall jev, join = Some jev -> jev_ok jev) ->
  pipe_new P target sources join ps = Some p0 -> pipeline_graph (map gvk_kind sources) join ps = Some g ->
  session P sortv p0 p -> history_ok P sources ∅ ds -> mirrors (p_src P p) (after ds) -> target_ok P target (p_tgt P p) ->
  order_ok o -> (forall acc B, inputs_of P (after ds) (map gvk_kind sources) acc -> xs g acc B -> functional P B) ->
  sync P sortv o p = (p', Some out) ->
  exists acc B W, inputs_of P (after ds) (map gvk_kind sources) acc /\ xs g acc B /\ shows P target B W
    /\ forall T i, (remembered P (held_plain (p_tgt P p)) B i -> apply_ops T out i = T i)
       /\ (~ remembered P (held_plain (p_tgt P p)) B i -> apply_ops T out i = W i).
Proof.
  intros Hex Hg Hs ND Hb Hok Hj Hp Hgr Hses HH HM HT Ho HF E. set (kinds := map gvk_kind sources) in *.
  unfold pipe_new in Hp. apply bind_Some in Hp as (g1 & Hg1 & [= <-]). fold kinds in Hg1.
  assert (Hkn : kinds <> []) by (by destruct sources).
  destruct (basic_shape kinds join ps g1 Hg1 Hkn Hb) as [Hst Hsh].
  destruct (c16_available kinds join ps g1 Hg1 Hkn Hb) as (gs & Egs & _).
  assert (I0 : session_inv P target sources g1 (Pipe P sources target g1 ∅ ∅ None)) by (split; auto).
  destruct (session_ok P sortv target sources g1 _ p Hst I0 Hses) as [I1 I2 I3 I4].
  assert (ES : match p_snap P p with Some g => Some g | None => to_snapshot_graph (p_graph P p) end = Some gs).
  { rewrite <-Egs. destruct I4 as [->|E4]; [by apply same_shape_snapshot|]. by rewrite E4, Egs. }
  destruct (convert_run_ok P sources ds ∅ ∅ (world_empty P _) mirrors_empty HH) as (src1 & zs1 & _ & _ & _ & Ww & _).
  change (foldl apply_event ∅ ds) with (after ds) in Ww.
  set (q := set_snap P p (Some gs)). set (tgt := p_tgt P p) in *.
  destruct (sync_inputs_ok P (osub o 0) q sources (after ds)) as (acc & Ea & HI & HFd); auto using osub_ok.
  destruct (target_zset P (osub o 2) target tgt Hex Hg) as (B0 & EB0 & W0 & F0 & S0 & D0); auto using osub_ok.
  assert (Wacc : map_Forall (fun _ z => zwf z) acc) by apply HFd.
  assert (A0 : agree tgt (held_plain tgt)).
  { intros i Hi. unfold held_plain. by rewrite bool_decide_eq_true_2. }
  revert E. unfold sync.
  rewrite ES. cbv zeta. fold q. rewrite Ea. cbn [mbind option_bind].
  change (p_tgt P q) with tgt. change (p_target P q) with (p_target P p). rewrite EB0, I2.
  destruct (xp (osub o 1) gs acc).2 as [y|] eqn:EX; cbn [mbind option_bind]; [|done].
  assert (HX : xs g acc y /\ zwf y /\ functional P y).
  { destruct (xp (osub o 1) gs acc) as [gs' r] eqn:EX'. simpl in EX. subst r.
    destruct (@c16_snapshot_sound (json_docs_on P) sortv kinds join ps g g1 gs (osub o 1) acc gs' y) as [_ HS]; auto using osub_ok.
    split; [done|]. split; [by eapply exec_scratch_wf|by eapply HF]. }
  destruct HX as (HS & Wy & Fy).
  destruct (@zsub_spec (json_docs_on P) (osub o 3) y B0 (osub_ok o 3 Ho) Wy W0) as (diff & Ed & Wd & Cd). rewrite Ed. cbn [mbind option_bind].
  destruct (convert_zset P (osub o 4) target diff) as [dl|] eqn:EC; [|done].
  destruct (reconcile P (osub o 5) tgt dl) as [tgt' r] eqn:ER. intros [= <- ->].
  assert (Cd' : forall k : string, zcount y k = zcount B0 k + zcount diff k) by (intros k; rewrite (Cd k); lia).
  destruct (target_step P target B0 y diff tgt (held_plain tgt) (osub o 4) (osub o 5) dl tgt' out) as [T1 T2]; auto using osub_ok.
  destruct (step_ids target B0 y diff tgt (held_plain tgt) (osub o 4) (osub o 5) dl tgt' out) as [N1 N2]; auto using osub_ok.
  exists acc, y, (apply_ops (held_plain tgt) out). split; [done|]. split; [done|]. split; [done|].
  assert (HB : forall i (k : string) d, shown P B0 k d i <-> @key (json_docs_on P) d = Some k /\ held_plain tgt i = Some d).
  { intros i k d. unfold shown. rewrite D0. split.
    - intros [[Hk (k' & Hk')] Hi]. split; [done|]. destruct (HT k' d Hk') as (i' & d' & -> & Hpi & Wd' & Hi' & -> & _). 
      destruct (encapsulate_ok target d' i' Wd' Hg Hi') as (_ & _ & _ & _ & E5). assert (i' = i) as -> by congruence. unfold held_plain. by rewrite bool_decide_eq_true_2.
    - intros [Hk Hi]. unfold held_plain in Hi. case_bool_decide as Hpi; [|done]. destruct (HT _ d Hi) as (i' & d' & Ek & Hpi' & Wd' & Hi' & -> & _).
      apply skey_inj in Ek; [|done..]. split; [split; [done|]; by eexists|]. assert (i' = i) as -> by (by destruct i, i'). by destruct (encapsulate_ok target d' i Wd' Hg Hi') as (_ & _ & _ & _ & E5). }
  intros T i. destruct (ops_elsewhere out T (held_plain tgt) i) as [O1 O2]. destruct (N2 i) as [(k & d & Hs1 & Hs0 & Hn)|[(Hs1 & Hs0 & Hn)|(Hn & Hc)]].
  - split; [by intros _; apply O2|]. intros Hr. exfalso. apply Hr. unfold remembered. apply HB in Hs0 as [_ ->]. by exists k.
  - split; [by intros _; apply O2|]. intros Hr. exfalso. apply Hr. unfold remembered. destruct (held_plain tgt i) as [m|] eqn:Em.
    + exfalso. apply Hs0. unfold held_plain in Em. case_bool_decide as Hpi; [|done]. destruct (HT _ m Em) as (_ & _ & _ & _ & _ & _ & _ & _ & [k Hk]). exists k, m. apply HB. split; [done|]. unfold held_plain. by rewrite bool_decide_eq_true_2.
    + intros (d & k & Hd). apply Hs1. by exists k, d.
  - split; [|by intros _; apply O1]. intros Hr. exfalso. unfold remembered in Hr. destruct (held_plain tgt i) as [m|] eqn:Em.
    + destruct Hr as (k & Hk & Hi). destruct Hc as [(k' & d & [Hd Hdi] & Hz)|[Hc _]]; [|apply Hc; by exists k, m].
      assert (k' = k) as -> by (by eapply (proj2 Fy)). assert (d = m) as -> by (pose proof (eq_trans (eq_sym Hd) Hk) as Q; by injection Q).
      assert (shown P B0 k m i) as [Hb0 _]. { apply HB. split; [by apply (zwf_doc P _ _ _ Wy Hk)|done]. } by destruct (zwf_doc P _ _ _ W0 Hb0).
    + destruct Hc as [(k' & d & Hd & _)|[_ (k & d & Hd)]]; [apply Hr; by exists d, k'|]. apply HB in Hd as [_ Hd]. congruence.
Qed.

(** *** Results of projections *)
Lemma scratch_last (ps : list (@op (json_docs_on P))) ev : exact P -> forall A B,
  @scratch (json_docs_on P) sortv (ps ++ [OProject ev]) A B -> forall (k : string) d, docs B !! k = Some d -> @key (json_docs_on P) d = Some k /\ exists d0 l, ev d0 = Some l /\ In d l.
Proof.
  intros [Hex Hwf]. induction ps as [|p ps IH]; intros A B HS k d Hd; cbn [app] in HS; inversion HS as [|o ? ? ? A' M ? Ho WA' Ea EP HS']; subst; [|by eapply IH].
  simpl in EP. destruct (project_linear (DD := json_docs_on P) ev o A' Ho WA') as [_ HL]. destruct (HL M EP) as [WM CM].
  inversion HS' as [? ? WB EB|]; subst. destruct (zwf_doc P _ _ _ WB Hd) as [Hk Hn]. specialize (EB k).
  split; [done|]. eapply (linear_from (DD := json_docs_on P) (fun o => project o ev) ev o A' M k d Hex); [apply project_linear|done|done|done|done|].
  intros Hz. apply Hn. by rewrite <- Hz.
Qed.
End heal.
