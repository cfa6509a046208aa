(** Workers and retries. *)
From Verif Require Import JsonModel ObjModel ZSetModel OpsModel ExecModel PipelineModel ReconcilerModel ZSetSpec OpsSpec GatherSpec ExecSpec JsonSpec CleanSpec PipelineSpec CrewSpec.
From Verif Require Import ConvertProofs TargetProofs PipeProofs PipeProofs4.

Section crew.
Context {FF : FloatFmt}.
Variable P : jobj -> bool.
#[local] Hint Extern 0 Docs => exact (json_docs_on P) : typeclass_instances.
Variable sortv : list json -> list json.
Local Notation crew_run := (crew_run P sortv apply_op).
#[local] Notation xs := (@exec_scratch (json_docs_on P) sortv).

(** The contents at one name depend on the operations about it. *)
Definition at_name (x : oname) (d : delta) : bool := bool_decide (obj_id (d_obj d) = x).
Lemma apply_ops_filter x l : forall T T', T x = T' x -> apply_ops T l x = apply_ops T' (List.filter (at_name x) l) x.
Proof.
  induction l as [|d l IH]; intros T T' E; [done|]. cbn [List.filter apply_ops foldl]. unfold at_name at 1. case_bool_decide as B.
  - cbn [foldl]. apply IH. unfold apply_op. by rewrite !decide_True.
  - apply IH. unfold apply_op. by rewrite decide_False by congruence.
Qed.
Lemma untouched x l : x ∉ touched l -> List.filter (at_name x) l = [].
Proof.
  induction l as [|d l IH]; [done|]. cbn [touched map]. rewrite not_elem_of_cons. intros [N1 N2]. cbn [List.filter]. unfold at_name at 1.
  rewrite bool_decide_eq_false_2 by congruence. by apply IH.
Qed.
Lemma apply_ops_eq T T' l l' x : T x = T' x -> List.filter (at_name x) l = List.filter (at_name x) l' -> apply_ops T l x = apply_ops T' l' x.
Proof. intros E1 E2. rewrite (apply_ops_filter x l T T' E1), E2. symmetry. by apply apply_ops_filter. Qed.

Lemma pending_split (pend : list (list delta)) i a : pend !! i = Some a -> exists l r, pend = l ++ a :: r /\ length l = i.
Proof. intros H. exists (take i pend), (drop (S i) pend). split; [by rewrite take_drop_middle|]. apply take_length_le. apply lookup_lt_Some in H. lia. Qed.
Lemma apart_sides l a r x : apart (l ++ a :: r) -> x ∈ touched a -> List.filter (at_name x) (concat l) = [] /\ List.filter (at_name x) (concat r) = [].
Proof.
  intros A Hx.
  assert (G : forall ls, (forall b, b ∈ ls -> x ∉ touched b) -> List.filter (at_name x) (concat ls) = []).
  { intros ls H. apply untouched. unfold touched. intros Hin. apply elem_of_list_In, in_map_iff in Hin as (d & E & Hd).
    apply in_concat in Hd as (b & Hb & Hd). apply (H b); [by apply elem_of_list_In|]. unfold touched. apply elem_of_list_In, in_map_iff. by exists d. }
  split; apply G; intros b Hb; apply elem_of_list_lookup in Hb as [j Hj].
  - eapply (A (length l) j); [|by apply list_lookup_middle| |exact Hx]; [apply lookup_lt_Some in Hj; lia|]. by apply lookup_app_l_Some.
  - eapply (A (length l) (length l + S j)%nat); [lia|by apply list_lookup_middle| |exact Hx]. rewrite lookup_app_r by lia. by replace (length l + S j - length l)%nat with (S j) by lia.
Qed.

(** Workers that never write the same object at the same time. *)
Lemma apart_workers o l : forall n p T pend c, crew_run o n (Crew P p T pend) l = Some c ->
  (forall l1 l2 c1, l = l1 ++ l2 -> crew_run o n (Crew P p T pend) l1 = Some c1 -> apart (w_pending P c1)) ->
  exists p' outs, pipe_run P sortv o n p (evaluated l) = (p', outs) /\ w_pipe P c = p'
    /\ forall x, apply_ops (w_target P c) (concat (w_pending P c)) x = apply_ops (apply_ops T (concat pend)) (concat (map (default []) outs)) x.
Proof.
  induction l as [|s l IH]; intros n p T pend c E HA.
  - injection E as <-. by exists p, [].
  - cbn [ReconcilerModel.crew_run] in E. apply bind_Some in E as (c1 & E1 & E).
    assert (HA0 : apart pend) by (by apply (HA [] (s :: l) _ eq_refl eq_refl)).
    assert (HA' : forall l1 l2 c2, l = l1 ++ l2 -> crew_run o (match s with WEval _ _ => S n | _ => n end) c1 l1 = Some c2 -> apart (w_pending P c2)).
    { intros l1 l2 c2 -> E2. apply (HA (s :: l1) l2 c2 eq_refl). cbn [ReconcilerModel.crew_run]. by rewrite E1. }
    assert (HA1 : apart (w_pending P c1)) by (by apply (HA' [] l c1 eq_refl)).
    destruct s as [i d|i]; cbn [crew_step w_pending w_pipe w_target] in E1.
    + destruct (pend !! i) as [[|? ?]|] eqn:Ei; try done. destruct (pending_split _ _ _ Ei) as (pl & pr & -> & <-).
      destruct (evaluate P sortv (osub o n) p d) as [p1 r] eqn:Ee. injection E1 as <-. cbn [w_pending] in HA1.
      rewrite insert_app_r_alt in HA1, E, HA' by lia. rewrite Nat.sub_diag in HA1, E, HA'. cbn [insert list_insert] in HA1, E, HA'.
      destruct (IH _ _ _ _ _ E HA') as (p' & outs & R & Ep & ET). exists p', (r :: outs). cbn [evaluated pipe_run]. rewrite Ee, R.
      split; [done|]. split; [done|]. intros x. rewrite ET. cbn [map concat]. unfold apply_ops at 3. rewrite foldl_app.
      apply apply_ops_eq; [|done]. fold (apply_ops (apply_ops T (concat (pl ++ [] :: pr))) (default [] r)).
      rewrite !concat_app. cbn [concat app]. unfold apply_ops. rewrite <-foldl_app. apply apply_ops_eq; [done|]. rewrite !List.filter_app.
      destruct (decide (x ∈ touched (default [] r))) as [Hx|Hx].
      * destruct (apart_sides _ _ _ _ HA1 Hx) as [-> ->]. by rewrite app_nil_r.
      * rewrite (untouched _ _ Hx), !app_nil_r. by cbn [app].
    + destruct (pend !! i) as [[|d ds]|] eqn:Ei; try done. destruct (pending_split _ _ _ Ei) as (pl & pr & -> & <-). injection E1 as <-. cbn [w_pending] in HA1.
      rewrite insert_app_r_alt in HA1, E, HA' by lia. rewrite Nat.sub_diag in HA1, E, HA'. cbn [insert list_insert] in HA1, E, HA'.
      destruct (IH _ _ _ _ _ E HA') as (p' & outs & R & Ep & ET). exists p', outs. split; [done|]. split; [done|]. intros x. rewrite ET.
      apply apply_ops_eq; [|done]. rewrite !concat_app. cbn [concat].
      change (apply_ops (apply_op T d) (concat pl ++ ds ++ concat pr) x) with (apply_ops T (d :: (concat pl ++ ds ++ concat pr)) x).
      apply apply_ops_eq; [done|]. cbn [List.filter app]. rewrite !List.filter_app. cbn [List.filter]. rewrite !List.filter_app. destruct (at_name x d) eqn:B; [|done]. apply bool_decide_eq_true in B.
      destruct (apart_sides _ _ _ x HA0) as [-> _]; [|done]. rewrite <-B. cbn [touched map]. apply elem_of_cons. by left.
Qed.
Lemma apart_ok o k l p c outs : crew_run o 0 (Crew P p no_objects (replicate k [])) l = Some c ->
  (forall l1 l2 c1, l = l1 ++ l2 -> crew_run o 0 (Crew P p no_objects (replicate k [])) l1 = Some c1 -> apart (w_pending P c1)) ->
  idle (w_pending P c) -> (pipe_run P sortv o 0 p (evaluated l)).2 = map Some outs ->
  w_pipe P c = (pipe_run P sortv o 0 p (evaluated l)).1 /\ forall x, w_target P c x = apply_ops no_objects (concat outs) x.
Proof.
  intros E HA EP R. destruct (apart_workers o l 0 p no_objects _ c E HA) as (p' & outs' & R' & Ep & ET). rewrite R' in R |- *. simpl in R |- *. subst outs'.
  split; [done|]. intros x.
  assert (C0 : concat (w_pending P c) = []). { revert EP. generalize (w_pending P c). induction 1 as [|a l' <- _ IH]; [done|]. exact IH. }
  specialize (ET x). rewrite C0 in ET. cbn [apply_ops foldl] in ET. rewrite ET.
  assert (C1 : concat (replicate k (@nil delta)) = []) by (clear; induction k; [done|exact IHk]).
  rewrite C1. rewrite map_map. cbn [default from_option]. by rewrite map_id.
Qed.
Lemma apart_one (pend : list delta) : apart [pend].
Proof. intros [|i] [|j] a b x N Ha Hb; done. Qed.
Lemma one_worker_apart o l : forall n p T pend c, crew_run o n (Crew P p T [pend]) l = Some c -> apart (w_pending P c).
Proof.
  induction l as [|s l IH]; intros n p T pend c E; [injection E as <-; apply apart_one|].
  cbn [ReconcilerModel.crew_run] in E. apply bind_Some in E as (c1 & E1 & E). destruct s as [i d|i]; cbn [crew_step w_pending w_pipe w_target] in E1.
  - destruct i as [|i]; [|done]. cbn [lookup list_lookup] in E1. destruct pend as [|x pend]; [|done].
    destruct (evaluate P sortv (osub o n) p d) as [p1 r] eqn:Ee. injection E1 as <-. eapply IH, E.
  - destruct i as [|i]; [|done]. cbn [lookup list_lookup] in E1. destruct pend as [|x pend]; [done|]. injection E1 as <-. eapply IH, E.
Qed.
Lemma one_worker_ok o l p c outs : crew_run o 0 (Crew P p no_objects [[]]) l = Some c -> idle (w_pending P c) ->
  (pipe_run P sortv o 0 p (evaluated l)).2 = map Some outs ->
  w_pipe P c = (pipe_run P sortv o 0 p (evaluated l)).1 /\ forall x, w_target P c x = apply_ops no_objects (concat outs) x.
Proof. intros E. eapply (apart_ok o 1); [done|]. intros l1 l2 c1 _ E1. eapply one_worker_apart, E1. Qed.

(** An event that is retried after a newer one. *)
Lemma after_retry ds d1 d2 : source_id (d_obj d1) = source_id (d_obj d2) -> d_type d1 <> Deleted ->
  after (ds ++ [d1; d2; d1]) = after (ds ++ [d1]).
Proof.
  intros Hid Ht. unfold after. rewrite !foldl_app. cbn [foldl]. set (w := foldl apply_event ∅ ds).
  assert (G : forall w', w' = apply_event (apply_event w d1) d2 -> apply_event w' d1 = apply_event w d1).
  { intros w' ->. unfold apply_event. rewrite Hid. destruct (d_type d1); try done; (destruct (d_type d2);
      try (by rewrite !insert_insert); rewrite delete_insert_delete, insert_delete_insert; done). }
  by apply G.
Qed.
Lemma stale_retry target sources join ps g p o ds d1 d2 p' outs :
  exact P -> gvk_ok target -> sources <> [] -> NoDup (map gvk_kind sources) ->
  forallb user_op ps = true -> Forall op_ok ps -> (forall jev, join = Some jev -> jev_ok jev) ->
  pipe_new P target sources join ps = Some p -> pipeline_graph (map gvk_kind sources) join ps = Some g ->
  order_ok o -> history_ok P sources ∅ (ds ++ [d1; d2; d1]) ->
  pipe_run P sortv o 0 p (ds ++ [d1; d2; d1]) = (p', map Some outs) ->
  (forall pre post acc B, ds ++ [d1; d2; d1] = pre ++ post -> inputs_of P (after pre) (map gvk_kind sources) acc ->
     xs g acc B -> functional P B) ->
  source_id (d_obj d1) = source_id (d_obj d2) -> d_type d1 <> Deleted ->
  exists acc B, inputs_of P (after (ds ++ [d1])) (map gvk_kind sources) acc /\ xs g acc B
    /\ shows P target B (apply_ops no_objects (concat outs)).
Proof.
  intros Hex Hg Hs ND Hu Hok Hj Hp Hgr Ho HH R HF Hid Ht.
  destruct (c19_core P sortv target sources join ps g p o _ p' outs Hex Hg Hs ND Hu Hok Hj Hp Hgr Ho HH R HF) as (acc & B & I & S1 & S2 & _).
  exists acc, B. rewrite (after_retry ds d1 d2 Hid Ht) in I. done.
Qed.
End crew.
