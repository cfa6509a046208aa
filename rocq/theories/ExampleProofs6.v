(** The health monitor, from what the watch delivers. *)
From Verif Require Import JsonModel ObjModel ZSetModel OpsModel ExecModel PipelineModel ValueModel PipeJsonModel StageModel PredicateModel ExampleModel.
From Verif Require Import ExprSpec ZSetSpec OpsSpec ExecSpec JsonSpec CleanSpec PipelineSpec StageSpec PredicateSpec ExampleSpec ExampleSpec2.
From Verif Require Import ObjProofs PredicateProofs ExampleProofs ExampleProofs2 ExampleProofs3 ExampleProofs4 ExampleProofs5.
#[local] Open Scope string_scope.

Lemma of_kind_filter (k : string) (sel : jobj -> bool) (w : world) : Permutation (of_kind k (filter (fun xm => sel xm.2 = true) w)) (List.filter sel (of_kind k w)).
Proof.
  unfold of_kind. assert (E : forall l : list (gvk * oname * jobj), List.filter sel (map snd l) = map snd (List.filter (fun e => sel e.2) l)).
  { induction l as [|e l IH]; [done|]. cbn [map List.filter]. destruct (sel e.2); cbn [map]; by rewrite IH. }
  rewrite E. apply Permutation_map. apply NoDup_Permutation.
  - apply NoDup_ListNoDup, List.NoDup_filter, NoDup_ListNoDup, NoDup_map_to_list.
  - apply NoDup_ListNoDup, List.NoDup_filter, List.NoDup_filter, NoDup_ListNoDup, NoDup_map_to_list.
  - intros [x m]. rewrite !elem_of_list_In, !filter_In, <-!elem_of_list_In, !elem_of_map_to_list, map_filter_lookup_Some. cbn. tauto.
Qed.
Lemma filter_swap {A} (f g : A -> bool) l : List.filter f (List.filter g l) = List.filter g (List.filter f l).
Proof. induction l as [|x l IH]; [done|]. cbn [List.filter]. destruct (f x) eqn:F, (g x) eqn:G; cbn [List.filter]; rewrite ?F, ?G; by rewrite IH. Qed.

Section watch.
Context {FF : FloatFmt}.
Notation sel := (fun m => enabled m).
Lemma enabled_stripped m : enabled (stripped m) = enabled m.
Proof. unfold enabled. by rewrite labels_stripped. Qed.
Notation reqs evs := (omap request_of (List.filter (p_funcs sel) evs)).
Lemma watch_ok evs : forall w, (forall x m, w !! x = Some m -> source_id m = x) ->
  informer w evs -> stable sel evs -> (forall e m, In e evs -> subject e = Some m -> pod_shaped m) ->
  history_ok clean [pod_kind] (filter (fun xm => enabled xm.2 = true) w) (reqs evs).
Proof.
  assert (HE : forall (w : world) t m, pod_shaped m -> match t with Added => w !! source_id m = None | Deleted => w !! source_id m = Some (stripped m) | Sync => False | _ => True end -> event_ok clean [pod_kind] w (Delta t m)).
  { intros w t m (H1 & H2 & H3 & H4 & H5) Ht. split_and!; try done. cbn [d_obj]. rewrite H3. by left. }
  induction evs as [|e evs IH]; intros w Hw HI HS HP; [exact I|].
  assert (HS' : stable sel evs) by (intros old m H; apply (HS old m); by right).
  assert (HP' : forall e m, In e evs -> subject e = Some m -> pod_shaped m) by (intros e' m H; apply HP; by right).
  assert (Hw' : forall m x m', <[source_id m := stripped m]> w !! x = Some m' -> source_id m' = x).
  { intros m x m'. rewrite lookup_insert_Some. intros [[<- <-]|[_ H]]; [apply stripped_source|by apply Hw]. }
  pose proof (fun m => HP e m (or_introl eq_refl)) as HPe. clear HP.
  destruct e as [m|[old|] [m|]|m|m]; cbn [informer] in HI; cbn [List.filter p_funcs]; try done.
  - destruct HI as [Hn HI]. specialize (IH _ (Hw' m) HI HS' HP'). destruct (enabled m) eqn:E; rewrite <-enabled_stripped in E; cbn [omap list_omap request_of history_ok].
    + split; [apply HE; [by apply HPe|]|].
      * rewrite map_filter_lookup_None. by left.
      * cbn [apply_event d_type d_obj]. by rewrite <-map_filter_insert_True.
    + rewrite map_filter_insert_False in IH by (cbn; by rewrite E). by rewrite delete_notin in IH.
  - destruct HI as (Hid & Hold & HI). specialize (IH _ (Hw' m) HI HS' HP'). pose proof (HS old m (or_introl eq_refl)) as Eo. cbn in Eo.
    destruct (enabled m) eqn:E; rewrite <-enabled_stripped in E; cbn [omap list_omap request_of history_ok].
    + split; [apply HE; [by apply HPe|done]|]. cbn [apply_event d_type d_obj]. by rewrite <-map_filter_insert_True.
    + rewrite map_filter_insert_False in IH by (cbn; by rewrite E). rewrite map_filter_delete, delete_notin in IH; [done|].
      rewrite map_filter_lookup_None. right. intros x Hx. rewrite Hold in Hx. injection Hx as <-. cbn. by rewrite enabled_stripped, Eo.
  - destruct HI as (Hold & HI). assert (Hw2 : forall x m', delete (source_id m) w !! x = Some m' -> source_id m' = x).
    { intros x m'. rewrite lookup_delete_Some. intros [_ H]. by apply Hw. }
    specialize (IH _ Hw2 HI HS' HP'). destruct (enabled m) eqn:E; rewrite <-enabled_stripped in E; cbn [omap list_omap request_of history_ok].
    + split; [apply HE; [by apply HPe|]|].
      * by rewrite map_filter_lookup_Some.
      * cbn [apply_event d_type d_obj]. by rewrite <-map_filter_delete.
    + rewrite map_filter_delete, delete_notin in IH; [done|]. rewrite map_filter_lookup_None. right. intros x Hx. rewrite Hold in Hx. injection Hx as <-. cbn. by rewrite E.
  - destruct (enabled m); cbn [omap list_omap request_of history_ok]; by apply IH.
Qed.
Lemma reqs_prefix evs : forall a b, reqs evs = (a ++ b)%list -> exists e1 e2, evs = (e1 ++ e2)%list /\ reqs e1 = a.
Proof.
  induction evs as [|e evs IH]; intros a b E.
  - exists [], []. split; [done|]. cbn in E. by destruct a.
  - destruct a as [|x a]; [by exists [], (e :: evs)|]. cbn [List.filter] in E. destruct (p_funcs sel e) eqn:Ee.
    + cbn [omap list_omap] in E. destruct (request_of e) as [d|] eqn:Er.
      * injection E as -> E. destruct (IH a b E) as (e1 & e2 & -> & <-). exists (e :: e1), e2. split; [done|]. cbn [List.filter]. rewrite Ee. cbn. by rewrite Er.
      * destruct (IH (x :: a) b E) as (e1 & e2 & -> & <-). exists (e :: e1), e2. split; [done|]. cbn [List.filter]. rewrite Ee. cbn. by rewrite Er.
    + destruct (IH (x :: a) b E) as (e1 & e2 & -> & Hx). exists (e :: e1), e2. split; [done|]. cbn [List.filter]. by rewrite Ee.
Qed.
Lemma informer_app a b : forall w, informer w (a ++ b) -> informer w a.
Proof.
  induction a as [|e a IH]; intros w; [done|]. cbn [app informer]. destruct e as [m|[old|] [m|]|m|m]; try done; [intros [? ?]|intros (? & ? & ?)|intros [? ?]|intros ?]; split_and?; try done; by apply IH.
Qed.
End watch.

Section views.
Context {FF : FloatFmt} {EE : ExprEnv}.
Hypothesis HP : reads_fields.
Hypothesis HQ : reads_pods.
Hypothesis HO : is_order iterate.
Hypothesis HE : env_clean.
Variable sortv : list json -> list json.
Hypothesis HS : forall l, Permutation (sortv l) l.

Lemma requests_are ps evs : source_predicates None (Some monitor_label) None = Some ps -> requests ps evs = omap request_of (List.filter (p_funcs (fun m => enabled m)) evs).
Proof. intros [= <-]. unfold requests. f_equal. apply List.filter_ext. intros e. cbn. by rewrite andb_true_r. Qed.
Lemma watched_views ps p pp o evs :
  fmt_ok -> fmt_inj -> unmarshal_pipeline pods_json = Val p -> declare clean health_view [pod_kind] p = Some pp -> order_ok o ->
  source_predicates None (Some monitor_label) None = Some ps -> pod_watch evs -> stable enabled evs ->
  (forall pre post, evs = (pre ++ post)%list -> splits (List.filter enabled (of_kind "Pod" (objects pre)))) ->
  exists p' outs, pipe_run clean sortv o 0 pp (requests ps evs) = (p', map Some outs)
    /\ forall ns a, match apply_ops no_objects (concat outs) (ns, a) with
       | None => enabled_of ns a (objects evs) = []
       | Some m => enabled_of ns a (objects evs) <> [] /\ exists l, Permutation l (map pod_status (enabled_of ns a (objects evs))) /\ m = view_of ns a l
       end.
Proof.
  intros F1 F2 HU HD Ho Hps [HI HW] HSt HSp. rewrite (requests_are ps evs Hps). clear ps Hps.
  assert (HA : forall e1 e2, evs = (e1 ++ e2)%list -> after (omap request_of (List.filter (p_funcs (fun m => enabled m)) e1)) = filter (fun xm => enabled xm.2 = true) (objects e1)).
  { intros e1 e2 ->. rewrite <-(select_ok enabled e1 enabled_stripped); [|by eapply informer_app|intros old m H; apply (HSt old m), in_or_app; by left].
    unfold requests. f_equal. f_equal. apply List.filter_ext. intros e. cbn. by rewrite andb_true_r. }
  pose proof (HA evs [] (eq_sym (app_nil_r evs))) as HAe.
  assert (HH : history_ok clean [pod_kind] ∅ (omap request_of (List.filter (p_funcs (fun m => enabled m)) evs))).
  { rewrite <-(map_filter_empty (fun xm : gvk * oname * jobj => enabled xm.2 = true)). apply watch_ok; [done|done|done|]. intros e m H1 H2. by apply (HW e m H1 H2). }
  assert (HM : pods_history (omap request_of (List.filter (p_funcs (fun m => enabled m)) evs))).
  { apply List.Forall_forall. intros d Hd. apply elem_of_list_In, elem_of_list_omap in Hd as (e & He & Hd). apply elem_of_list_In, filter_In in He as [He Hs].
    destruct e as [m|[old|] [m|]|m|m]; cbn in Hd; try done; injection Hd as <-; cbn [d_obj]; eapply HW; try exact He; done. }
  assert (HSp' : forall pre post, omap request_of (List.filter (p_funcs (fun m => enabled m)) evs) = (pre ++ post)%list -> splits (of_kind "Pod" (after pre))).
  { intros pre post E. destruct (reqs_prefix evs pre post E) as (e1 & e2 & Ee & <-). rewrite (HA e1 e2 Ee). specialize (HSp e1 e2 Ee).
    intros d1 d2 a1 a2 s1 s2 I1 I2. apply HSp; (eapply Permutation_in; [apply of_kind_filter|done]). }
  destruct (pods_runs HP HO HE HQ sortv p pp o _ HS F1 F2 HU HD Ho HH HM HSp') as (p' & outs & HR). exists p', outs. split; [exact HR|]. intros ns a.
  pose proof (pods_holds HP HQ HO sortv HS p pp o _ p' outs F1 F2 HE HU HD Ho HH HM HSp' HR ns a) as HT. rewrite HAe in HT.
  assert (PE : Permutation (pods_of ns a (filter (fun xm => enabled xm.2 = true) (objects evs))) (enabled_of ns a (objects evs))).
  { unfold enabled_of, pods_of. rewrite filter_swap. apply filter_perm. apply (of_kind_filter "Pod"). }
  destruct (apply_ops _ _ _) as [m|].
  - destruct HT as [HN (l & Hl & ->)]. split.
    + intros E. rewrite E in PE. by apply Permutation_nil_r in PE.
    + exists l. split; [|done]. by rewrite Hl, PE.
  - rewrite HT in PE. by apply Permutation_nil_l in PE.
Qed.
End views.
