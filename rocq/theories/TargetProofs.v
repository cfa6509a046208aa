(** From result deltas to the target (C19, C23). *)
From Verif Require Import JsonModel ObjModel ZSetModel OpsModel ExecModel PipelineModel ZSetSpec OpsSpec GatherSpec ExecSpec JsonSpec CleanSpec PipelineSpec.
From Verif Require Import JsonProofs JsonIdent CleanProofs ZSetProofs ZSetProofs2 ReconcileProofs ObjProofs ConvertProofs.

Lemma zcount_lookup {DD : Docs} z k : zcount z k <> 0 -> counts z !! k = Some (zcount z k).
Proof. unfold zcount. by destruct (counts z !! k). Qed.

Section target.
Context {FF : FloatFmt}.
Variable P : jobj -> bool.
#[local] Hint Extern 0 Docs => exact (json_docs_on P) : typeclass_instances.
(** Identity is equality, and documents are well formed. *)
Definition exact : Prop :=
  (forall (a b : jobj) (k : ident), key a = Some k -> key b = Some k -> a = b)
  /\ (forall (a : jobj) (k : ident), key a = Some k -> owf a).
Variable target : gvk.

(** A result document in a Z-set. *)
Definition shown (B : zset) (k : ident) (d : jobj) (i : oname) : Prop := docs B !! k = Some d /\ doc_id d = Some i.

Lemma shown_dec B i : (exists k d, shown B k d i) \/ ~ (exists k d, shown B k d i).
Proof.
  destruct (decide (Exists (fun kd => doc_id kd.2 = Some i) (map_to_list (docs B)))) as [H|H].
  - left. apply Exists_exists in H as ([k d] & Hin & Hd). exists k, d. split; [|done]. by apply elem_of_map_to_list in Hin.
  - right. intros (k & d & Hk & Hd). apply H, Exists_exists. exists (k, d). split; [|done]. by apply elem_of_map_to_list.
Qed.
Lemma zwf_doc B (k : ident) d : zwf B -> docs B !! k = Some d -> key d = Some k /\ zcount B k <> 0.
Proof.
  intros W Hd. split; [by eapply wf_key|]. unfold zcount. assert (is_Some (counts B !! k)) as [c Hc].
  { rewrite <-elem_of_dom. rewrite <-(wf_dom _ W). apply elem_of_dom. by exists d. }
  rewrite Hc. simpl. by eapply wf_nz.
Qed.
Lemma zwf_nz B (k : ident) : zwf B -> zcount B k <> 0 -> exists d, docs B !! k = Some d.
Proof.
  intros W Hc. unfold zcount in Hc. destruct (counts B !! k) as [c|] eqn:E; [|done].
  change (is_Some (docs B !! k)). rewrite <-elem_of_dom. rewrite (wf_dom _ W). apply elem_of_dom. by exists c.
Qed.

(** The deltas of a result Z-set. *)
Lemma convert_zset_in o y ds : order_ok o -> zwf y -> convert_zset P o target y = Some ds ->
  forall x, In x ds <-> exists (k : ident) d i, shown y k d i
     /\ x = Delta (if 0 <? zcount y k then Added else Deleted) (encapsulate target d i.1 i.2).
Proof.
  intros Ho W E x. unfold convert_zset, zlist in E. apply bind_Some in E as (es & Ees & E). apply bind_Some in E as (dss & Ed & [= <-]).
  destruct (entries_inv o y es Ho W Ees) as (E1 & E2 & _ & _).
  assert (H : forall e, In e es -> exists k i, shown y k e.1 i /\ e.2 = zcount y k /\ e.2 <> 0
     /\ entry_delta target e = Some [Delta (if 0 <? zcount y k then Added else Deleted) (encapsulate target e.1 i.1 i.2)]).
  { intros [d c] He. destruct (E1 d c He) as (k & Hk & Hc & Hd).
    assert (Hnz : c <> 0) by (by eapply wf_nz).
    assert (is_Some (entry_delta target (d, c))) as [l Hl].
    { eapply mapM_Some_1 in Ed. clear -Ed He. induction Ed as [|e l es dss H HF IH]; [done|]. destruct He as [->|He]; eauto. }
    pose proof Hl as Hl'. unfold entry_delta in Hl. destruct (Z.eqb_spec c 0); [done|].
    apply bind_Some in Hl as ([ns nm] & Hi & Hl). exists k, (ns, nm). simpl.
    assert (zcount y k = c) as Hz by (unfold zcount; by rewrite Hc). rewrite Hz.
    split_and!; [done|done|done|]. destruct (Z.eqb_spec c 0); [done|]. by rewrite Hi. }
  assert (Hin : In x (concat dss) <-> exists e, In e es /\ exists l, entry_delta target e = Some l /\ In x l).
  { clear -Ed. apply mapM_Some_1 in Ed. induction Ed as [|e l es dss H HF IH]; simpl; [naive_solver|].
    rewrite in_app_iff, IH. naive_solver. }
  rewrite Hin. split.
  - intros (e & He & l & Hl & Hx). destruct (H e He) as (k & i & Hs & _ & _ & Hl'). rewrite Hl' in Hl. injection Hl as <-.
    destruct Hx as [<-|[]]. by exists k, e.1, i.
  - intros (k & d & i & [Hd Hi] & ->). destruct (zwf_doc _ _ _ W Hd) as [Hk Hnz].
    pose proof (E2 _ _ _ (zcount_lookup _ _ Hnz) Hd) as He. eexists (d, _). split; [done|].
    destruct (H _ He) as (k' & i' & [Hd' Hi'] & _ & _ & Hl). simpl in *.
    assert (i' = i) by congruence. subst i'. assert (Some k' = Some k) as [= ->]. { destruct (zwf_doc _ _ _ W Hd') as [Hk' _]. exact (eq_trans (eq_sym Hk') Hk). }
    eexists. split; [exact Hl|]. by left.
Qed.
Lemma convert_zset_total o y : order_ok o -> zwf y -> (forall (k : ident) d, docs y !! k = Some d -> is_Some (doc_id d)) ->
  is_Some (convert_zset P o target y).
Proof.
  intros Ho W H. unfold convert_zset, zlist. destruct (entries_ok o y Ho W) as (es & E & E1 & _). rewrite E. simpl.
  assert (is_Some (mapM (entry_delta target) es)) as [dss ->]; [|done].
  apply mapM_is_Some_2. apply List.Forall_forall. intros [d c] He. destruct (E1 d c He) as (k & _ & _ & Hd).
  destruct (H k d Hd) as [[ns nm] Hi]. change (is_Some (entry_delta target (d, c))). unfold entry_delta. destruct (c =? 0); [done|]. by rewrite Hi.
Qed.


Lemma adds_empty_iff i ds : adds_of i ds = [] <-> ~ exists m, In (Delta Added m) ds /\ obj_id m = i.
Proof.
  split.
  - intros E (m & Hm & Hi). assert (In m (adds_of i ds)); [|by rewrite E in *].
    unfold adds_of. apply in_map_iff. exists (Delta Added m). split; [done|]. apply filter_In. split; [done|]. by apply bool_decide_eq_true.
  - intros H. destruct (adds_of i ds) as [|m l] eqn:E; [done|]. exfalso. apply H. exists m. apply in_adds. rewrite E. by left.
Qed.
Lemma dels_empty_iff i ds : dels_of i ds = [] <-> ~ exists m, In (Delta Deleted m) ds /\ obj_id m = i.
Proof.
  split.
  - intros E (m & Hm & Hi). assert (In m (dels_of i ds)); [|by rewrite E in *].
    unfold dels_of. apply in_map_iff. exists (Delta Deleted m). split; [done|]. apply filter_In. split; [done|]. by apply bool_decide_eq_true.
  - intros H. destruct (dels_of i ds) as [|m l] eqn:E; [done|]. exfalso. apply H. exists m. apply in_dels. rewrite E. by left.
Qed.

Lemma last_all {A} (l : list A) a : (forall x, In x l -> x = a) -> l <> [] -> last l = Some a.
Proof.
  intros H Hne. destruct (last l) as [x|] eqn:E; [|by apply last_None in E]. f_equal. apply H. by apply last_In.
Qed.

(** One step: from result [B0] to result [B1] through the delta [y]. *)
Lemma target_step B0 B1 y tgt T o1 o2 ds tgt' out :
  exact -> gvk_ok target -> zwf B0 -> zwf B1 -> zwf y -> functional P B0 -> functional P B1 ->
  (forall k : ident, zcount B1 k = zcount B0 k + zcount y k) ->
  order_ok o1 -> order_ok o2 -> shows P target B0 T -> agree tgt T ->
  convert_zset P o1 target y = Some ds -> reconcile P o2 tgt ds = (tgt', Some out) ->
  shows P target B1 (apply_ops T out) /\ agree tgt' (apply_ops T out).
Proof.
  intros [Hex Hwf] Hg W0 W1 Wy F0 F1 HC Ho1 Ho2 S0 A0 Ec Er.
  pose proof (convert_zset_in o1 y ds Ho1 Wy Ec) as HD.
  assert (Hcount0 : forall k : ident, zcount B0 k = 0 \/ zcount B0 k = 1).
  { intros k. destruct (decide (zcount B0 k = 0)) as [|Hn]; [by left|right]. destruct (zwf_nz _ _ W0 Hn) as [d Hd]. by apply (proj1 F0 k d Hd). }
  assert (Hcount1 : forall k : ident, zcount B1 k = 0 \/ zcount B1 k = 1).
  { intros k. destruct (decide (zcount B1 k = 0)) as [|Hn]; [by left|right]. destruct (zwf_nz _ _ W1 Hn) as [d Hd]. by apply (proj1 F1 k d Hd). }
  (* the documents of the delta are those of one of the results *)
  assert (Hy : forall (k : ident) d i, shown y k d i ->
     (zcount y k = 1 /\ zcount B0 k = 0 /\ shown B1 k d i) \/ (zcount y k = -1 /\ zcount B1 k = 0 /\ shown B0 k d i)).
  { intros k d i [Hd Hi]. destruct (zwf_doc _ _ _ Wy Hd) as [Hk Hnz]. specialize (HC k).
    destruct (Hcount0 k) as [C0|C0], (Hcount1 k) as [C1|C1]; try lia.
    - left. split_and!; [lia|done|]. destruct (zwf_nz B1 k W1) as [d' Hd']; [lia|].
      destruct (zwf_doc _ _ _ W1 Hd') as [Hk' _]. assert (d' = d) by (by eapply Hex). subst d'. done.
    - right. split_and!; [lia|done|]. destruct (zwf_nz B0 k W0) as [d' Hd']; [lia|].
      destruct (zwf_doc _ _ _ W0 Hd') as [Hk' _]. assert (d' = d) by (by eapply Hex). subst d'. done. }
  assert (Hplain : forall B, zwf B -> functional P B -> forall (k : ident) d i, shown B k d i -> plain i /\ obj_id (encapsulate target d i.1 i.2) = i /\ obj_copy (encapsulate target d i.1 i.2) = encapsulate target d i.1 i.2).
  { intros B W [F _] k d i [Hd Hi]. destruct (zwf_doc _ _ _ W Hd) as [Hk _].
    destruct (F k d Hd) as (_ & i' & Hi' & Hp). assert (i' = i) by congruence. subst i'.
    destruct (encapsulate_ok target d i (Hwf _ _ Hk) Hg Hi) as (? & _ & _ & ? & _). done. }
  assert (Huniq : forall B, functional P B -> forall (k1 k2 : ident) d1 d2 i, shown B k1 d1 i -> shown B k2 d2 i -> k1 = k2 /\ d1 = d2).
  { intros B [_ F] k1 k2 d1 d2 i [H1 H2] [H3 H4]. assert (k1 = k2) by (by eapply F). subst k2. split; [done|congruence]. }
  assert (Hraw : Forall raw_delta ds).
  { apply List.Forall_forall. intros x Hx. apply HD in Hx as (k & d & i & Hs & ->). split; [simpl; destruct (0 <? zcount y k); auto|].
    simpl. destruct (Hy k d i Hs) as [(_ & _ & Hs')|(_ & _ & Hs')]; [destruct (Hplain B1 W1 F1 k d i Hs') as (? & -> & _)|destruct (Hplain B0 W0 F0 k d i Hs') as (? & -> & _)]; done. }
  destruct (reconcile_ok P o2 tgt ds Ho2 Hraw) as (tgt'' & out' & Er' & ND & _ & R1 & R2 & R3 & R4).
  rewrite Er in Er'. injection Er' as <- <-.
  (* what is added and deleted *)
  assert (HA : forall m i, In (Delta Added m) ds /\ obj_id m = i <-> exists (k : ident) d, shown B1 k d i /\ zcount B0 k = 0 /\ m = encapsulate target d i.1 i.2).
  { intros m i. split.
    - intros [Hm Hid]. apply HD in Hm as (k & d & i' & Hs & E). injection E as E ->.
      destruct (Hy k d i' Hs) as [(C & C0 & Hs')|(C & C0 & Hs')]; rewrite C in E; [|done].
      destruct (Hplain B1 W1 F1 k d i' Hs') as (_ & E' & _). rewrite E' in Hid. subst i'. by exists k, d.
    - intros (k & d & Hs & C0 & ->). destruct (Hplain B1 W1 F1 k d i Hs) as (_ & E' & _). split; [|done].
      apply HD. destruct Hs as [Hd Hi]. destruct (zwf_doc _ _ _ W1 Hd) as [Hk Hnz].
      assert (Cy : zcount y k = 1). { specialize (HC k). destruct (Hcount1 k); lia. }
      destruct (zwf_nz y k Wy) as [d' Hd']; [lia|]. destruct (zwf_doc _ _ _ Wy Hd') as [Hk' _].
      assert (d' = d) by (by eapply Hex). subst d'. exists k, d, i. split; [done|]. by rewrite Cy. }
  assert (HDel : forall m i, In (Delta Deleted m) ds /\ obj_id m = i <-> exists (k : ident) d, shown B0 k d i /\ zcount B1 k = 0 /\ m = encapsulate target d i.1 i.2).
  { intros m i. split.
    - intros [Hm Hid]. apply HD in Hm as (k & d & i' & Hs & E). injection E as E ->.
      destruct (Hy k d i' Hs) as [(C & C0 & Hs')|(C & C0 & Hs')]; rewrite C in E; [done|].
      destruct (Hplain B0 W0 F0 k d i' Hs') as (_ & E' & _). rewrite E' in Hid. subst i'. by exists k, d.
    - intros (k & d & Hs & C0 & ->). destruct (Hplain B0 W0 F0 k d i Hs) as (_ & E' & _). split; [|done].
      apply HD. destruct Hs as [Hd Hi]. destruct (zwf_doc _ _ _ W0 Hd) as [Hk Hnz].
      assert (Cy : zcount y k = -1). { specialize (HC k). destruct (Hcount0 k); lia. }
      destruct (zwf_nz y k Wy) as [d' Hd']; [lia|]. destruct (zwf_doc _ _ _ Wy Hd') as [Hk' _].
      assert (d' = d) by (by eapply Hex). subst d'. exists k, d, i. split; [done|]. by rewrite Cy. }
  assert (HT : forall i, touched i ds <-> (exists m, In (Delta Added m) ds /\ obj_id m = i) \/ (exists m, In (Delta Deleted m) ds /\ obj_id m = i)).
  { intros i. split; [|intros [(m & Hm & Hi)|(m & Hm & Hi)]; eexists; split; [exact Hm|done|exact Hm|done]].
    intros ([t m] & Hm & Hi). rewrite Forall_forall in Hraw. pose proof Hm as Hm'. apply elem_of_list_In in Hm'. destruct (Hraw _ Hm') as [[E|E] _]; simpl in E; subst t; eauto. }
  (* each name *)
  assert (Hname : forall i,
     (exists k d, shown B1 k d i /\ apply_ops T out i = Some (encapsulate target d i.1 i.2) /\ held tgt' i = Some (encapsulate target d i.1 i.2))
     \/ (~ (exists k d, shown B1 k d i) /\ apply_ops T out i = None /\ (plain i -> held tgt' i = None))).
  { intros i.
    assert (Hsame : ~ touched i ds -> apply_ops T out i = T i /\ (plain i -> held tgt' i = T i)).
    { intros N. assert (Nin : ~ In i (map (fun d => obj_id (d_obj d)) out)).
      { intros Hin. apply in_map_iff in Hin as (x & Hx & Hin). destruct (R1 i x) as [R _]; [rewrite <-Hx; by apply R2|]. by destruct R. }
      split; [by apply apply_ops_notin|]. intros Hp. rewrite R4 by done. by apply A0. }
    destruct (shown_dec B1 i) as [(k & d & Hs)|N1].
    - left. exists k, d. split; [done|]. destruct (Hplain B1 W1 F1 k d i Hs) as (Hp & Eid & Ecp).
      destruct (Hcount0 k) as [C0|C0].
      + (* new *)
        assert (Ha : last (adds_of i ds) = Some (encapsulate target d i.1 i.2)).
        { apply last_all.
          - intros m Hm. apply in_adds in Hm. apply HA in Hm as (k' & d' & Hs' & _ & ->).
            by destruct (Huniq B1 F1 k k' d d' i Hs Hs') as [_ ->].
          - intros E. rewrite adds_empty_iff in E. apply E. eexists. apply HA. by exists k, d. }
        assert (Hact : action (ops_of tgt i ds) = Some (Delta Upserted (encapsulate target d i.1 i.2))).
        { unfold action, ops_of. cbn [k_adds k_dels k_existed]. rewrite Ha. destruct (head (dels_of i ds)) as [m|] eqn:Eh; [|done].
          rewrite bool_decide_eq_true_2; [done|]. rewrite A0 by done. apply head_In, in_dels, HDel in Eh as (k' & d' & Hs' & _ & _).
          eexists. apply S0. exists k', d'. destruct Hs'. split_and!; done. }
        assert (Ti : touched i ds). { apply HT. left. eexists. apply HA. by exists k, d. }
        destruct (proj2 (R1 i _ Hp) (conj Ti Hact)) as [Hin Eid'].
        pose proof (apply_ops_in out T _ ND Hin) as Ht. pose proof (R3 _ Hin) as Hh. cbn [d_obj] in *. rewrite Eid' in Ht, Hh.
        rewrite Ht, Hh. simpl. by rewrite Ecp.
      + (* kept *)
        assert (Hs0 : shown B0 k d i).
        { destruct (zwf_nz B0 k W0) as [d' Hd']; [lia|]. destruct (zwf_doc _ _ _ W0 Hd') as [Hk' _]. destruct Hs as [Hd Hi].
          destruct (zwf_doc _ _ _ W1 Hd) as [Hk Hnz1]. assert (d' = d) by (by eapply Hex). subst d'. done. }
        assert (C1 : zcount B1 k <> 0) by (destruct Hs; by eapply zwf_doc).
        assert (N : ~ touched i ds).
        { rewrite HT. intros [(m & Hm)|(m & Hm)].
          - apply HA in Hm as (k' & d' & Hs' & C & _). destruct (Huniq B1 F1 k k' d d' i Hs Hs') as [-> _]. lia.
          - apply HDel in Hm as (k' & d' & Hs' & C & _). destruct (Huniq B0 F0 k k' d d' i Hs0 Hs') as [-> _]. lia. }
        destruct (Hsame N) as [-> E2]. rewrite E2 by done.
        assert (T i = Some (encapsulate target d i.1 i.2)) as ->; [|done].
        apply S0. exists k, d. destruct Hs0. done.
    - right. split; [done|]. destruct (shown_dec B0 i) as [(k & d & Hs)|N0].
      + (* gone *)
        destruct (Hplain B0 W0 F0 k d i Hs) as (Hp & Eid & Ecp).
        assert (C1 : zcount B1 k = 0).
        { destruct (decide (zcount B1 k = 0)); [done|]. exfalso. apply N1. destruct (zwf_nz B1 k W1) as [d' Hd']; [done|].
          destruct (zwf_doc _ _ _ W1 Hd') as [Hk' _]. destruct Hs as [Hd Hi]. destruct (zwf_doc _ _ _ W0 Hd) as [Hk _].
          assert (d' = d) by (by eapply Hex). subst d'. by exists k, d. }
        assert (Hdel : exists m, In (Delta Deleted m) ds /\ obj_id m = i). { eexists. apply HDel. by exists k, d. }
        assert (Ha : adds_of i ds = []).
        { apply adds_empty_iff. intros (m & Hm). apply HA in Hm as (k' & d' & Hs' & _). apply N1. eauto. }
        assert (exists m, head (dels_of i ds) = Some m) as [m Hm].
        { destruct (dels_of i ds) as [|m l] eqn:E; [|by exists m]. rewrite dels_empty_iff in E. done. }
        assert (Hact : action (ops_of tgt i ds) = Some (Delta Deleted m)).
        { unfold action, ops_of. cbn [k_adds k_dels k_existed]. rewrite Ha, Hm. simpl.
          rewrite bool_decide_eq_true_2; [done|]. rewrite A0 by done. eexists. apply S0. exists k, d. destruct Hs. split_and!; done. }
        assert (Ti : touched i ds). { apply HT. by right. }
        destruct (proj2 (R1 i _ Hp) (conj Ti Hact)) as [Hin Eid'].
        pose proof (apply_ops_in out T _ ND Hin) as Ht. pose proof (R3 _ Hin) as Hh. cbn [d_obj] in *. rewrite Eid' in Ht, Hh.
        rewrite Ht, Hh. done.
      + assert (N : ~ touched i ds).
        { rewrite HT. intros [(m & Hm)|(m & Hm)].
          - apply HA in Hm as (k' & d' & Hs' & _). apply N1. eauto.
          - apply HDel in Hm as (k' & d' & Hs' & _). apply N0. eauto. }
        destruct (Hsame N) as [E1 E2]. assert (T i = None) as HTi.
        { destruct (T i) as [m|] eqn:E; [|done]. exfalso. apply S0 in E as (k & d & ? & ? & _). apply N0. by exists k, d. }
        rewrite E1, HTi. split; [done|]. intros Hp. by rewrite E2. }
  split.
  - intros i m. destruct (Hname i) as [(k & d & Hs & -> & _)|(N & -> & _)].
    + split.
      * intros [= <-]. exists k, d. destruct Hs. done.
      * intros (k' & d' & H1 & H2 & ->). by destruct (Huniq B1 F1 k k' d d' i Hs (conj H1 H2)) as [_ ->].
    + split; [done|]. intros (k & d & H1 & H2 & _). exfalso. apply N. by exists k, d.
  - intros i Hp. destruct (Hname i) as [(k & d & Hs & -> & ->)|(N & -> & E)]; [done|by apply E].
Qed.
End target.
