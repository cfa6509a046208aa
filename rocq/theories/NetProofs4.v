(** Proofs about controllers that work together: one controller. *)
From Verif Require Import NetModel ZSetSpec OpsSpec GatherSpec ExecSpec JsonSpec CleanSpec PipelineSpec GroupSpec ValueSpec ViewSpec WriterSpec NetSpec.
From Verif Require Import JsonProofs CleanProofs ReconcileProofs ObjProofs ConvertProofs TargetProofs PipeProofs PipeProofs2 PipeProofs4 RetryProofs OptProofs ViewProofs ViewProofs2 NetProofs2 NetProofs3.

Section node.
Context {FF : FloatFmt}.
#[local] Hint Extern 0 Docs => exact (json_docs_on clean) : typeclass_instances.
Variable sortv : list json -> list json.
Notation node := (node clean).

(** The objects change, and these events tell so *)
Definition change (C C' : gvk -> store) (es : list (gvk * wevent)) : Prop :=
  (es = [] /\ forall y i, cur (C' y) i = cur (C y) i)
  \/ exists x e d, es = [(x, e)] /\ request_of (copied e) = Some d /\ get_gvk (d_obj d) = x /\ is_Some (doc_id (stripped (d_obj d)))
     /\ (forall w : world, w !! source_id (d_obj d) = cur (C x) (obj_id (d_obj d)) -> event_ok clean [x] w d)
     /\ forall y i, cur (C' y) i = if decide (source_id (d_obj d) = (y, i)) then match d_type d with Deleted => None | _ => Some (stripped (d_obj d)) end else cur (C y) i.
Lemma change_none C C' : (forall y, C' y = C y) -> change C C' [].
Proof. intros H. left. split; [done|]. intros. by rewrite H. Qed.
Lemma cur_insert s m i : plain (obj_id m) -> cur (<[store_key m := m]> s) i = if decide (obj_id m = i) then Some (stripped m) else cur s i.
Proof.
  intros P. unfold cur. destruct (plain_dec i) as [Pi|Pi].
  - rewrite !held_plain_in, store_key_skey by done. case_decide as E; [subst; by rewrite lookup_insert|]. rewrite lookup_insert_ne; [done|]. intros E2. apply E. by apply skey_inj.
  - rewrite !held_plain_out by done. rewrite decide_False by (by intros <-). done.
Qed.
Lemma cur_delete s m i : plain (obj_id m) -> cur (delete (store_key m) s) i = if decide (obj_id m = i) then None else cur s i.
Proof.
  intros P. unfold cur. destruct (plain_dec i) as [Pi|Pi].
  - rewrite !held_plain_in, store_key_skey by done. case_decide as E; [subst; by rewrite lookup_delete|]. rewrite lookup_delete_ne; [done|]. intros E2. apply E. by apply skey_inj.
  - rewrite !held_plain_out by done. by case_decide.
Qed.
Lemma cur_held s m : plain (obj_id m) -> cur s (obj_id m) = stripped <$> s !! store_key m.
Proof. intros P. unfold cur. by rewrite held_plain_in, store_key_skey. Qed.
Lemma change_put C C' x m e : sound x m -> C' x = <[store_key m := m]> (C x) -> (forall y, y <> x -> C' y = C y) ->
  (e = WCreate m /\ C x !! store_key m = None \/ exists old, e = WUpdate old (Some m)) -> change C C' [(x, e)].
Proof.
  intros S Hx Hy He. assert (S' := S). destruct S' as (W & Cl & G & P & Nm).
  assert (exists t, request_of (copied e) = Some (Delta t (obj_copy m)) /\ (t = Added /\ C x !! store_key m = None \/ t = Updated)) as (t & Et & Ht).
  { destruct He as [[-> E]|[old ->]]; [exists Added; split; [done|by left]|exists Updated; split; [done|by right]]. }
  right. exists x, e, (Delta t (obj_copy m)). cbn [d_obj d_type]. rewrite copy_gvk, copy_source, copy_id, stripped_of_copy by done. split_and!; [done..| |].
  - intros w Hw. apply sound_event; [done|]. destruct Ht as [[-> E]| ->]; [|done]. by rewrite Hw, cur_held, E by done.
  - intros y i. unfold source_id. rewrite G. destruct (decide (y = x)) as [->|N].
    + rewrite Hx, cur_insert by done. case_decide as E; [subst; rewrite decide_True by done; by destruct Ht as [[-> _]| ->]|]. rewrite decide_False; [done|]. intros E2. apply E. exact (f_equal snd E2).
    + rewrite Hy, decide_False by congruence. done.
Qed.
Lemma change_drop C C' x m : fine x (C x) -> C x !! store_key m = Some m -> C' x = delete (store_key m) (C x) -> (forall y, y <> x -> C' y = C y) ->
  change C C' [(x, WDelete m)].
Proof.
  intros F Hm Hx Hy. destruct (F _ _ Hm) as [S _]. assert (S' := S). destruct S' as (W & Cl & G & P & Nm).
  right. exists x, (WDelete m), (Delta Deleted (obj_copy m)). cbn [d_obj d_type]. rewrite copy_gvk, copy_source, copy_id, stripped_of_copy by done. split_and!; [done..| |].
  - intros w Hw. apply sound_event; [done|]. by rewrite Hw, cur_held, Hm by done.
  - intros y i. unfold source_id. rewrite G. destruct (decide (y = x)) as [->|N].
    + rewrite Hx, cur_delete by done. case_decide as E; [subst; by rewrite decide_True by done|]. rewrite decide_False; [done|]. intros E2. apply E. exact (f_equal snd E2).
    + rewrite Hy, decide_False by congruence. done.
Qed.

(** A controller that has kept up with the objects [C] *)
Definition past (n : node) (x : gvk) : list delta := List.filter (on x) (n_done clean n) ++ n_queue clean n x.
Record node_ok (o : order) (C : gvk -> store) (c : config) (p0 : pipe clean) (n : node) : Prop := {
  no_run : exists outs, pipe_run clean sortv o 0 p0 (n_done clean n) = (n_pipe clean n, map Some outs) /\ concat outs = n_written clean n ++ n_pending clean n;
  no_off : n_on clean n = false -> n_done clean n = [] /\ forall x, n_queue clean n x = [];
  no_kinds : Forall (fun d => get_gvk (d_obj d) ∈ c_sources c) (n_done clean n);
  no_hist : forall x, x ∈ c_sources c -> history_ok clean [x] ∅ (past n x);
  no_named : forall x, x ∈ c_sources c -> named_history (past n x);
  no_after : n_on clean n = true -> forall x i, x ∈ c_sources c -> after (past n x) !! (x, i) = cur (C x) i;
  no_other : forall x, x ∉ c_sources c -> n_queue clean n x = [] }.

Section one.
Variables (o : order) (c : config) (p0 : pipe clean).
Hypothesis Ho : order_ok o.
Hypothesis Hc : config_ok c p0.
Lemma p0_kinds : p_target clean p0 = c_target c /\ p_sources clean p0 = c_sources c.
Proof. destruct Hc as (_ & _ & _ & _ & _ & _ & Hp & _). unfold pipe_new in Hp. by apply bind_Some in Hp as (g & _ & [= <-]). Qed.
Lemma node_kinds C n : node_ok o C c p0 n -> p_target clean (n_pipe clean n) = c_target c /\ p_sources clean (n_pipe clean n) = c_sources c.
Proof.
  intros [(outs & E & _) _ _ _ _ _ _]. destruct (pipe_run_inv clean sortv o Ho _ _ _ _ _ E) as (_ & _ & _ & _ & _ & _ & -> & ->). apply p0_kinds.
Qed.
Lemma node_new C : node_ok o C c p0 (node0 clean p0).
Proof.
  split; cbn; try done; [by exists []|]. intros. constructor.
Qed.
Lemma node_start C n : node_ok o C c p0 n -> n_on clean n = false -> (forall x, fine x (C x)) -> forall lister D, lists_all lister -> (forall x, D x = C x) ->
  node_ok o C c p0 (Node clean (n_pipe clean n) true
    (fun y => if decide (y ∈ p_sources clean (n_pipe clean n)) then map (fun m => Delta Added (obj_copy m)) (lister (D y)) else [])
    (n_done clean n) (n_pending clean n) (n_written clean n)).
Proof.
  intros H Off F lister D L ED. destruct (node_kinds C n H) as [_ Ks]. rewrite Ks. destruct H as [R O K Hi Na A Q]. destruct (O Off) as [O1 O2].
  split; cbn [n_pipe n_on n_queue n_done n_pending n_written]; try done.
  - intros x Hx. unfold past. cbn [n_queue n_done]. rewrite O1, decide_True, ED by done. cbn. apply (store_start x (C x)); [done|apply L].
  - intros x Hx. unfold past. cbn [n_queue n_done]. rewrite O1, decide_True, ED by done. cbn. apply (start_named x (C x)); [done|apply L].
  - intros _ x i Hx. unfold past. cbn [n_queue n_done]. rewrite O1, decide_True, ED by done. cbn. apply (store_start x (C x)); [done|apply L].
  - intros x Hx. by rewrite decide_False.
Qed.
Lemma node_tell C C' es n : node_ok o C c p0 n -> change C C' es -> node_ok o C' c p0 (tell clean es n).
Proof.
  intros H Ch. destruct (node_kinds C n H) as [_ Ks]. destruct H as [R O K Hi Na A Q]. unfold tell. destruct (n_on clean n) eqn:On; [|split; try done; by rewrite On].
  rewrite Ks. destruct Ch as [[-> E]|(x & e & d & -> & Er & G & Nd & Ev & E)].
  - split; cbn [n_pipe n_on n_queue n_done n_pending n_written]; try done.
    + intros x Hx. unfold past. cbn [n_queue n_done]. rewrite decide_True by done. cbn. rewrite app_nil_r. by apply Hi.
    + intros x Hx. unfold past. cbn [n_queue n_done]. rewrite decide_True by done. cbn. rewrite app_nil_r. by apply Na.
    + intros _ x i Hx. unfold past. cbn [n_queue n_done]. rewrite decide_True by done. cbn. rewrite app_nil_r, E. by apply A.
    + intros x Hx. rewrite Q, decide_False by done. done.
  - assert (Eq : forall y, y ∈ c_sources c -> past (Node clean (n_pipe clean n) true (fun y => n_queue clean n y ++
         if decide (y ∈ c_sources c) then omap request_of (map (fun e => copied e.2) (List.filter (fun e => bool_decide (e.1 = y)) [(x, e)])) else [])
         (n_done clean n) (n_pending clean n) (n_written clean n)) y = past n y ++ if decide (x = y) then [d] else []).
    { intros y Hy. unfold past. cbn [n_queue n_done]. rewrite decide_True by done. rewrite <- app_assoc. do 2 f_equal. cbn [List.filter fst]. case_decide; [rewrite bool_decide_eq_true_2 by done|by rewrite bool_decide_eq_false_2]. cbn. by rewrite Er. }
    split; cbn [n_pipe n_on n_queue n_done n_pending n_written]; try done.
    + intros y Hy. rewrite Eq by done. case_decide as D; [|rewrite app_nil_r; by apply Hi]. subst y. apply history_snoc. split; [by apply Hi|]. apply Ev.
      unfold source_id. rewrite G. by apply A.
    + intros y Hy. rewrite Eq by done. case_decide; [|rewrite app_nil_r; by apply Na]. apply Forall_app. split; [by apply Na|]. by constructor.
    + intros _ y i Hy. rewrite Eq, E by done. case_decide as D.
      * subst y. rewrite after_snoc. case_decide; [done|]. by apply A.
      * rewrite app_nil_r. rewrite decide_False; [by apply A|]. unfold source_id. congruence.
    + intros y Hy. rewrite Q, decide_False by done. done.
Qed.
Lemma history_kind x ds : history_ok clean [x] ∅ ds -> Forall (fun d => get_gvk (d_obj d) = x) ds.
Proof.
  generalize (∅ : world). induction ds as [|d ds IH]; intros w H; [constructor|]. destruct H as [(_ & _ & _ & G & _) H]. constructor; [by apply elem_of_list_singleton|by eapply IH].
Qed.
Lemma node_work C n x d q p ops : node_ok o C c p0 n -> n_pending clean n = [] -> n_queue clean n x = d :: q ->
  evaluate clean sortv (osub o (length (n_done clean n))) (n_pipe clean n) d = (p, Some ops) ->
  node_ok o C c p0 (Node clean p (n_on clean n) (fun y => if decide (y = x) then q else n_queue clean n y) (n_done clean n ++ [d]) ops (n_written clean n)).
Proof.
  intros [R O K Hi Na A Q] P0 Eq Ev. assert (Hx : x ∈ c_sources c). { destruct (decide (x ∈ c_sources c)) as [?|N]; [done|]. by rewrite Q in Eq. }
  assert (Gd : get_gvk (d_obj d) = x). { assert (Hk := history_kind x _ (Hi x Hx)). unfold past in Hk. rewrite Eq in Hk. apply Forall_app in Hk as [_ Hk]. by apply Forall_cons in Hk as [? _]. }
  assert (Ep : forall y, y ∈ c_sources c -> past (Node clean p (n_on clean n) (fun y => if decide (y = x) then q else n_queue clean n y) (n_done clean n ++ [d]) ops (n_written clean n)) y = past n y).
  { intros y Hy. unfold past. cbn [n_queue n_done]. rewrite List.filter_app, <- app_assoc. f_equal. cbn [List.filter]. unfold on at 1. case_decide as D.
    - subst y. rewrite Gd, bool_decide_eq_true_2 by done. by rewrite Eq.
    - rewrite Gd, bool_decide_eq_false_2 by congruence. done. }
  split; cbn [n_pipe n_on n_queue n_done n_pending n_written].
  - destruct R as (outs & R1 & R2). exists (outs ++ [ops]). split; [by eapply pipe_run_snoc|].
    rewrite concat_app. cbn. by rewrite R2, P0, !app_nil_r.
  - intros Off. destruct (O Off) as [_ O2]. by rewrite O2 in Eq.
  - apply Forall_app. split; [done|]. apply Forall_singleton. by rewrite Gd.
  - intros y Hy. rewrite Ep by done. by apply Hi.
  - intros y Hy. rewrite Ep by done. by apply Na.
  - intros On y i Hy. rewrite Ep by done. by apply A.
  - intros y Hy. rewrite decide_False by (by intros ->). by apply Q.
Qed.
Lemma node_written C n d ds : node_ok o C c p0 n -> n_pending clean n = d :: ds ->
  node_ok o C c p0 (Node clean (n_pipe clean n) (n_on clean n) (n_queue clean n) (n_done clean n) ds (n_written clean n ++ [d])).
Proof.
  intros [R O K Hi Na A Q] E. split; cbn [n_pipe n_on n_queue n_done n_pending n_written]; try done.
  destruct R as (outs & R1 & R2). exists outs. split; [done|]. rewrite R2, E. by rewrite <- app_assoc.
Qed.
(** What it has processed is a history of its sources *)
Lemma node_history C n : node_ok o C c p0 n -> history_ok clean (c_sources c) ∅ (n_done clean n).
Proof.
  intros [R O K Hi Na A Q]. apply history_merge; [done|]. intros x Hx. specialize (Hi x Hx). unfold past in Hi. by apply history_app in Hi as [Hi _].
Qed.
Lemma node_named C n : node_ok o C c p0 n -> named_history (n_done clean n).
Proof.
  intros [R O K Hi Na A Q]. apply Forall_forall. intros d Hd. rewrite Forall_forall in K. specialize (Na _ (K d Hd)). unfold past in Na. apply Forall_app in Na as [Na _]. rewrite Forall_forall in Na. apply Na.
  apply elem_of_list_In, filter_In. split; [by apply elem_of_list_In|]. by apply bool_decide_eq_true.
Qed.
Lemma node_emitted C n : exact clean -> node_ok o C c p0 n -> tidy_results sortv c n -> Forall (emitted (c_target c)) (n_written clean n ++ n_pending clean n).
Proof.
  intros Hex H T. assert (HH := node_history C n H). destruct H as [(outs & R1 & <-) _ _ _ _ _ _]. destruct Hc as (Hg & Hs & ND & Hu & Hok & Hj & Hp & _).
  assert (exists g, pipeline_graph (map gvk_kind (c_sources c)) (c_join c) (c_stages c) = Some g) as [g Hgr].
  { unfold pipe_new in Hp. apply bind_Some in Hp as (g & Hg' & _). destruct (pipeline_graph _ _ _) as [g'|] eqn:E; [by exists g'|]. by rewrite pipeline_new_none in Hg'. }
  eapply (run_emitted sortv (c_target c)); eauto. intros pre post acc B E Ha Hx. apply (T pre post B E). exists g, acc. eauto.
Qed.
End one.
End node.
