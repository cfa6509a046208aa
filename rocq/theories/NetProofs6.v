(** Proofs about controllers that work together: all of them. *)
From Verif Require Import NetModel ZSetSpec OpsSpec GatherSpec ExecSpec JsonSpec CleanSpec PipelineSpec GroupSpec ValueSpec ViewSpec WriterSpec NetSpec.
From Verif Require Import JsonProofs CleanProofs ReconcileProofs ObjProofs ConvertProofs TargetProofs PipeProofs PipeProofs2 PipeProofs4 RetryProofs OptProofs ViewProofs ViewProofs2.
From Verif Require Import NetProofs2 NetProofs3 NetProofs4 NetProofs5.

Section net.
Context {FF : FloatFmt}.
#[local] Hint Extern 0 Docs => exact (json_docs_on clean) : typeclass_instances.
Variable sortv : list json -> list json.
Variable hash : string -> string.
Variable lister : store -> list jobj.
Variable o : nat -> order.
Variable cs : list config.
Variable ps : list (pipe clean).
Notation node := (node clean).
Notation net := (net clean).
Hypothesis Hex : exact clean.
Hypothesis Ho : forall k, order_ok (o k).
Hypothesis Hl : lists_all lister.
Hypothesis Hh : forall t, hash t <> EmptyString /\ utf8_ok (hash t) = true.
Hypothesis Hcs : Forall2 config_ok cs ps.
Hypothesis Hap : apart_targets cs.

Definition made_by (x : gvk) : bool := is_view_kind x && existsb (fun c => bool_decide (c_target c = x)) cs.
Definition objs (outer views : caches) (x : gvk) : store := cache_of (if made_by x then views else outer) x.
Record inv (s : net) : Prop := {
  i_len : length (t_nodes clean s) = length cs;
  i_node : forall k n, t_nodes clean s !! k = Some n -> exists c p0, cs !! k = Some c /\ ps !! k = Some p0 /\ node_ok sortv (o k) (objs (t_outer clean s) (t_views clean s)) c p0 n;
  i_outer : forall x, fine x (cache_of (t_outer clean s) x);
  i_views : exists w, views_ok hash (t_views clean s) w;
  i_target : forall k n c, t_nodes clean s !! k = Some n -> cs !! k = Some c -> is_view_kind (c_target c) = true ->
    tracked (c_target c) (apply_ops no_objects (n_written clean n)) (Forall (fun d => bare (d_obj d)) (n_written clean n)) (t_views clean s) }.

Lemma conf k c p : cs !! k = Some c -> ps !! k = Some p -> config_ok c p.
Proof. intros H1 H2. by eapply Forall2_lookup_lr. Qed.
Lemma made_eq s : inv s -> forall x, made clean s x = made_by x.
Proof.
  intros I x. unfold made, made_by. f_equal. apply eq_true_iff_eq. rewrite !existsb_exists. split.
  - intros (n & Hn & E). apply elem_of_list_In, elem_of_list_lookup in Hn as [k Hk]. destruct (i_node s I k n Hk) as (c & p0 & Hc & Hp & N).
    destruct (node_kinds sortv (o k) c p0 (Ho k) (conf _ _ _ Hc Hp) _ n N) as [E1 _]. exists c. split; [by apply elem_of_list_In, elem_of_list_lookup; eauto|]. by rewrite <- E1.
  - intros (c & Hin & E). apply elem_of_list_In, elem_of_list_lookup in Hin as [k Hk]. destruct (lookup_lt_is_Some_2 (t_nodes clean s) k) as [n Hn]; [rewrite (i_len s I); by eapply lookup_lt_Some|].
    destruct (i_node s I k n Hn) as (c' & p0 & Hc & Hp & N). rewrite Hk in Hc. injection Hc as <-.
    destruct (node_kinds sortv (o k) c p0 (Ho k) (conf _ _ _ Hk Hp) _ n N) as [E1 _]. exists n. split; [by apply elem_of_list_In, elem_of_list_lookup; eauto|]. by rewrite E1.
Qed.
Lemma objects_eq s : inv s -> forall x, objects_of clean s x = objs (t_outer clean s) (t_views clean s) x.
Proof. intros I x. unfold objects_of, objs. by rewrite (made_eq s I). Qed.
Lemma objs_fine s : inv s -> forall x, fine x (objs (t_outer clean s) (t_views clean s) x).
Proof. intros I x. unfold objs. case_match; [|by apply I]. destruct (i_views s I) as [w Hw]. by eapply views_fine. Qed.
Lemma inv_start : inv (net0 clean ps).
Proof.
  assert (E : forall k n, map (node0 clean) ps !! k = Some n -> exists c p0, cs !! k = Some c /\ ps !! k = Some p0 /\ n = node0 clean p0).
  { intros k n. rewrite list_lookup_fmap. destruct (ps !! k) as [p|] eqn:Ep; [|done]. intros [= <-]. destruct (Forall2_lookup_r _ _ _ _ _ Hcs Ep) as (c & Hc & _). eauto. }
  split; cbn [net0 t_nodes t_outer t_views].
  - rewrite map_length. symmetry. by eapply Forall2_length.
  - intros k n Hk. destruct (E k n Hk) as (c & p0 & Hc & Hp & ->). exists c, p0. split_and!; [done..|]. apply node_new.
  - intros x k m. unfold cache_of. by rewrite lookup_empty.
  - exists ∅. split; [apply sim_empty|]. intros k m. by rewrite lookup_empty.
  - intros k n c Hk Hc V i Pi. destruct (E k n Hk) as (c' & p0 & _ & _ & ->). cbn. unfold no_objects. rewrite held_plain_in by done. unfold cache_of. by rewrite lookup_empty.
Qed.

Lemma told nodes C C' es : change C C' es ->
  (forall k n, nodes !! k = Some n -> exists c p0, cs !! k = Some c /\ ps !! k = Some p0 /\ node_ok sortv (o k) C c p0 n) ->
  forall k n, map (tell clean es) nodes !! k = Some n -> exists c p0, cs !! k = Some c /\ ps !! k = Some p0 /\ node_ok sortv (o k) C' c p0 n.
Proof.
  intros Ch H k n. rewrite list_lookup_fmap. destruct (nodes !! k) as [n0|] eqn:E; [|done]. intros [= <-]. destruct (H k n0 E) as (c & p0 & Hc & Hp & N). exists c, p0. split_and!; [done..|].
  eapply node_tell; eauto. by eapply conf.
Qed.
Lemma tell_written es n : n_written clean (tell clean es n) = n_written clean n.
Proof. unfold tell. by case_match. Qed.
Lemma tell_done es n : n_done clean (tell clean es n) = n_done clean n.
Proof. unfold tell. by case_match. Qed.
Lemma told_written nodes es k n : map (tell clean es) nodes !! k = Some n -> exists n0, nodes !! k = Some n0 /\ n_written clean n = n_written clean n0 /\ n_done clean n = n_done clean n0.
Proof. rewrite list_lookup_fmap. destruct (nodes !! k) as [n0|]; [|done]. intros [= <-]. exists n0. by rewrite tell_written, tell_done. Qed.
Lemma fine_put c x m y : (forall z, fine z (cache_of c z)) -> sound x m -> fine y (cache_of (put c x m) y).
Proof.
  intros F S k m'. rewrite cache_put. case_decide as E; [subst y|by apply F]. rewrite lookup_insert_Some. intros [[<- <-]|[_ H]]; [done|by apply F].
Qed.
Lemma fine_drop c x k y : (forall z, fine z (cache_of c z)) -> fine y (cache_of (drop_key c x k) y).
Proof.
  intros F j m'. rewrite cache_drop. case_decide as E; [subst y|by apply F]. rewrite lookup_delete_Some. intros [_ H]. by apply F.
Qed.

Lemma applied_in ds i m : apply_ops no_objects ds i = Some m -> exists d, d ∈ ds /\ d_obj d = m.
Proof.
  induction ds as [|d ds IH] using rev_ind; [done|]. unfold apply_ops. rewrite foldl_app. cbn [foldl]. unfold apply_op at 1. case_decide.
  - destruct (d_type d) eqn:Ed; intros E; try done; injection E as <-; exists d; (split; [|done]); apply elem_of_app; right; by apply elem_of_list_singleton.
  - intros E. destruct (IH E) as (d' & H1 & H2). exists d'. split; [|done]. apply elem_of_app. by left.
Qed.
Definition all_tidy (s : net) : Prop := forall k c n, cs !! k = Some c -> t_nodes clean s !! k = Some n -> tidy_results sortv c n.
Notation step := (net_step clean sortv hash lister o).

Lemma step_done s a s' k n : step s a = Some s' -> t_nodes clean s !! k = Some n -> exists n' post, t_nodes clean s' !! k = Some n' /\ n_done clean n' = n_done clean n ++ post.
Proof.
  destruct s as [outer views nodes]. cbn [t_nodes]. intros E Hk.
  assert (Same : forall nodes' : list node, (forall j m, nodes !! j = Some m -> exists m', nodes' !! j = Some m' /\ n_done clean m' = n_done clean m) ->
    exists n' post, nodes' !! k = Some n' /\ n_done clean n' = n_done clean n ++ post).
  { intros nodes' H. destruct (H k n Hk) as (n' & ? & ?). exists n', []. by rewrite app_nil_r. }
  assert (Tell : forall es (nd : list node), (forall j m, nodes !! j = Some m -> exists m', nd !! j = Some m' /\ n_done clean m' = n_done clean m) ->
    forall j m, nodes !! j = Some m -> exists m', map (tell clean es) nd !! j = Some m' /\ n_done clean m' = n_done clean m).
  { intros es nd H j m Hj. destruct (H j m Hj) as (m' & H1 & H2). exists (tell clean es m'). rewrite list_lookup_fmap, H1. split; [done|]. by rewrite tell_done. }
  assert (Ins : forall i n0 n1, nodes !! i = Some n0 -> n_done clean n1 = n_done clean n0 ->
    forall j m, nodes !! j = Some m -> exists m', <[i := n1]> nodes !! j = Some m' /\ n_done clean m' = n_done clean m).
  { intros i n0 n1 Hi Hd j m Hj. destruct (decide (i = j)) as [->|N].
    - exists n1. rewrite list_lookup_insert by (by eapply lookup_lt_Some). split; [done|]. rewrite Hi in Hj. by injection Hj as <-.
    - exists m. by rewrite list_lookup_insert_ne. }
  destruct a as [m|x ns name|j|j x|j]; cbn [net_step] in E.
  - destruct (made _ _ _); [done|]. injection E as <-. cbn [t_nodes]. apply Same, Tell. eauto.
  - destruct (made _ _ _); [done|]. apply bind_Some in E as (m & _ & [= <-]). cbn [t_nodes]. apply Same, Tell. eauto.
  - apply bind_Some in E as (n0 & Hj & E). destruct (n_on clean n0); [done|]. injection E as <-. cbn [t_nodes]. apply Same. by eapply Ins.
  - apply bind_Some in E as (n0 & Hj & E). destruct (n_pending clean n0); [|done]. destruct (n_queue clean n0 x) as [|d q]; [done|]. destruct (evaluate _ _ _ _ _) as [p [ops|]]; [|done]. injection E as <-. cbn [t_nodes].
    destruct (decide (j = k)) as [->|N].
    + rewrite Hk in Hj. injection Hj as <-. eexists _, [d]. rewrite list_lookup_insert by (by eapply lookup_lt_Some). done.
    + exists n, []. rewrite app_nil_r. by rewrite list_lookup_insert_ne.
  - apply bind_Some in E as (n0 & Hj & E). destruct (n_pending clean n0) as [|d ds]; [done|]. destruct (is_view_kind _).
    + destruct (view_write _ _ _ _) as [[c es] []]; try done. injection E as <-. cbn [t_nodes]. apply Same, Tell. by eapply Ins.
    + injection E as <-. cbn [t_nodes]. apply Same. by eapply Ins.
Qed.
Lemma tidy_back s a s' : step s a = Some s' -> all_tidy s' -> all_tidy s.
Proof.
  intros E T k c n Hc Hn pre post B Ed Q. destruct (step_done s a s' k n E Hn) as (n' & post' & Hn' & Ed'). apply (T k c n' Hc Hn' pre (post ++ post') B); [|done]. by rewrite Ed', Ed, app_assoc.
Qed.

Lemma inv_step s a s' : act_fit a -> all_tidy s -> inv s -> step s a = Some s' -> inv s'.
Proof.
  intros Fa T I E. assert (Me := made_eq s I). assert (Oe := objects_eq s I). assert (Of := objs_fine s I). destruct s as [outer views nodes]. destruct I as [IL IN IO IV IT]. cbn [t_nodes t_outer t_views] in *.
  destruct a as [m|x ns name|j|j x|j]; cbn [net_step] in E.
  - rewrite Me in E. destruct (made_by (get_gvk m)) eqn:Mx; [done|]. injection E as <-. destruct Fa as (W & C & P & Nm).
    assert (S : sound (get_gvk m) m) by done.
    split; cbn [t_nodes t_outer t_views].
    + by rewrite map_length.
    + eapply told; [|exact IN]. apply (change_put _ _ (get_gvk m) m); [done|..].
      * unfold objs. by rewrite Mx, cache_put, decide_True.
      * intros y Hy. unfold objs. destruct (made_by y); [done|]. by rewrite cache_put, decide_False.
      * unfold objs. rewrite Mx. destruct (cache_of outer (get_gvk m) !! store_key m); [right; eauto|by left].
    + intros x. by apply fine_put.
    + done.
    + intros k n c Hk Hc V. apply told_written in Hk as (n0 & Hk & -> & _). by eapply IT.
  - rewrite Me in E. destruct (made_by x) eqn:Mx; [done|]. apply bind_Some in E as (m & Em & [= <-]). destruct (IO x _ _ Em) as [S Ek].
    split; cbn [t_nodes t_outer t_views].
    + by rewrite map_length.
    + eapply told; [|exact IN]. apply (change_drop _ _ x m).
      * apply Of.
      * unfold objs. by rewrite Mx, Ek.
      * unfold objs. by rewrite Mx, cache_drop, decide_True, Ek.
      * intros y Hy. unfold objs. destruct (made_by y); [done|]. by rewrite cache_drop, decide_False.
    + intros y. by apply fine_drop.
    + done.
    + intros k n c Hk Hc V. apply told_written in Hk as (n0 & Hk & -> & _). by eapply IT.
  - apply bind_Some in E as (n & Hj & E). destruct (n_on clean n) eqn:On; [done|]. injection E as <-.
    split; cbn [t_nodes t_outer t_views]; [by rewrite insert_length| |done..|].
    + intros k n'. destruct (decide (j = k)) as [->|N]; [|rewrite list_lookup_insert_ne by done; apply IN]. rewrite list_lookup_insert by (by eapply lookup_lt_Some). intros [= <-].
      destruct (IN k n Hj) as (c & p0 & Hc & Hp & No). exists c, p0. split_and!; [done..|].
      exact (node_start sortv (o k) c p0 (Ho k) (conf _ _ _ Hc Hp) _ n No On Of lister _ Hl Oe).
    + intros k n' c. destruct (decide (j = k)) as [->|N]; [|rewrite list_lookup_insert_ne by done; apply IT]. rewrite list_lookup_insert by (by eapply lookup_lt_Some). intros [= <-]. cbn [n_written]. by apply IT.
  - apply bind_Some in E as (n & Hj & E). destruct (n_pending clean n) eqn:Pe; [|done]. destruct (n_queue clean n x) as [|d q] eqn:Eq; [done|]. destruct (evaluate _ _ _ _ _) as [p [ops|]] eqn:Ev; [|done]. injection E as <-.
    split; cbn [t_nodes t_outer t_views]; [by rewrite insert_length| |done..|].
    + intros k n'. destruct (decide (j = k)) as [->|N]; [|rewrite list_lookup_insert_ne by done; apply IN]. rewrite list_lookup_insert by (by eapply lookup_lt_Some). intros [= <-].
      destruct (IN k n Hj) as (c & p0 & Hc & Hp & No). exists c, p0. split_and!; [done..|]. by eapply node_work.
    + intros k n' c. destruct (decide (j = k)) as [->|N]; [|rewrite list_lookup_insert_ne by done; apply IT]. rewrite list_lookup_insert by (by eapply lookup_lt_Some). intros [= <-]. cbn [n_written]. by apply IT.
  - apply bind_Some in E as (n & Hj & E). destruct (n_pending clean n) as [|d ds] eqn:Pe; [done|].
    destruct (IN j n Hj) as (c & p0 & Hc & Hp & No). assert (Cf := conf _ _ _ Hc Hp). destruct (node_kinds sortv (o j) c p0 (Ho j) Cf _ n No) as [Et _]. rewrite Et in E.
    assert (Nw := node_written sortv (o j) c p0 _ n d ds No Pe).
    set (n1 := Node clean (n_pipe clean n) (n_on clean n) (n_queue clean n) (n_done clean n) ds (n_written clean n ++ [d])) in *.
    assert (IN1 : forall k n', <[j := n1]> nodes !! k = Some n' -> exists c p0, cs !! k = Some c /\ ps !! k = Some p0 /\ node_ok sortv (o k) (objs outer views) c p0 n').
    { intros k n'. destruct (decide (j = k)) as [->|N]; [|rewrite list_lookup_insert_ne by done; apply IN]. rewrite list_lookup_insert by (by eapply lookup_lt_Some). intros [= <-]. eauto. }
    assert (Em : emitted (c_target c) d).
    { assert (X := node_emitted sortv (o j) c p0 (Ho j) Cf _ n Hex No (T j c n Hc Hj)). rewrite Pe in X. apply Forall_app in X as [_ X]. by apply Forall_cons in X as [X _]. }
    assert (Emw : Forall (emitted (c_target c)) (n_written clean n)).
    { assert (X := node_emitted sortv (o j) c p0 (Ho j) Cf _ n Hex No (T j c n Hc Hj)). by apply Forall_app in X as [X _]. }
    destruct (is_view_kind (c_target c)) eqn:V.
    + destruct IV as [w Hw]. destruct Cf as (Hg & _ & _ & _ & _ & _ & _ & Hv). destruct (Hv V) as [Ox Cx].
      destruct (view_step hash (fun t => proj1 (Hh t)) (fun t => proj2 (Hh t)) (c_target c) Hg Ox Cx views w d Hw Em) as (c' & es & w' & Ew & Hw' & Ch & Tr). rewrite Ew in E. injection E as <-.
      assert (Mx : made_by (c_target c) = true). { unfold made_by. rewrite V. cbn. apply existsb_exists. exists c. split; [by eapply elem_of_list_In, elem_of_list_lookup_2|]. by apply bool_decide_eq_true. }
      assert (Oth : forall y, y <> c_target c -> cache_of c' y = cache_of views y).
      { intros y Hy. destruct Ch as [[_ ->]|[(v & e & _ & _ & -> & _)|(old & _ & _ & ->)]]; [done|by rewrite cache_put, decide_False|by rewrite cache_drop, decide_False]. }
      assert (Cho : change (objs outer views) (objs outer c') es).
      { destruct Ch as [[-> ->]|[(v & e & S & -> & -> & He)|(old & Eo & -> & ->)]].
        - by apply change_none.
        - apply (change_put _ _ (c_target c) v); [done|..].
          + unfold objs. by rewrite Mx, cache_put, decide_True.
          + intros y Hy. unfold objs. destruct (made_by y); [|done]. by apply Oth.
          + unfold objs. rewrite Mx. done.
        - apply (change_drop _ _ (c_target c) old).
          + apply Of.
          + unfold objs. by rewrite Mx.
          + unfold objs. by rewrite Mx, cache_drop, decide_True.
          + intros y Hy. unfold objs. destruct (made_by y); [|done]. by apply Oth. }
      split; cbn [t_nodes t_outer t_views].
      * by rewrite map_length, insert_length.
      * eapply told; [exact Cho|exact IN1].
      * done.
      * by exists w'.
      * intros k n' c0 Hk Hc0 V0. apply told_written in Hk as (n0 & Hk & -> & _). destruct (decide (j = k)) as [->|N].
        -- rewrite list_lookup_insert in Hk by (by eapply lookup_lt_Some). injection Hk as <-. rewrite Hc in Hc0. injection Hc0 as <-. cbn [n_written n1].
           unfold apply_ops. rewrite foldl_app. cbn [foldl]. apply Tr.
           ++ specialize (IT k n c Hj Hc V). intros i Pi. specialize (IT i Pi). unfold apply_ops in IT. destruct (foldl _ _ _ i) as [m|]; [|done]. destruct IT as (m' & H1 & H2 & H3). exists m'. split_and!; [done..|].
              intros B. apply H3. by apply Forall_app in B as [B _].
           ++ intros B. apply Forall_app in B as [B1 B2]. split; [by inversion B2|]. intros i m Em'. destruct (applied_in _ _ _ Em') as (d' & Hd' & <-). by eapply Forall_forall in B1.
        -- rewrite list_lookup_insert_ne in Hk by done. specialize (IT k n0 c0 Hk Hc0 V0). assert (Ne : c_target c0 <> c_target c). { intros Ec. apply N. symmetry. by eapply (Hap k j c0 c). }
           intros i Pi. rewrite Oth by done. by apply IT.
    + injection E as <-. split; cbn [t_nodes t_outer t_views]; [by rewrite insert_length|done..|].
      intros k n' c0 Hk Hc0 V0. destruct (decide (j = k)) as [->|N]; [congruence|]. rewrite list_lookup_insert_ne in Hk by done. by eapply IT.
Qed.

Lemma run_tidy_back l : forall s s', net_run clean sortv hash lister o s l = Some s' -> all_tidy s' -> all_tidy s.
Proof.
  induction l as [|a l IH]; intros s s' E T; cbn [net_run] in E; [by injection E as <-|]. apply bind_Some in E as (s1 & E1 & E). eapply tidy_back; [done|]. by eapply IH.
Qed.
Lemma inv_run l : forall s s', Forall act_fit l -> inv s -> net_run clean sortv hash lister o s l = Some s' -> all_tidy s' -> inv s'.
Proof.
  induction l as [|a l IH]; intros s s' F I E T; cbn [net_run] in E; [by injection E as <-|]. apply bind_Some in E as (s1 & E1 & E). apply Forall_cons in F as [Fa F].
  assert (T1 := run_tidy_back l s1 s' E T). apply (IH s1 s'); [done| |done..]. apply (inv_step s a s1); [done| |done..]. by eapply tidy_back.
Qed.

Lemma graph_of c p : config_ok c p -> exists g, pipeline_graph (map gvk_kind (c_sources c)) (c_join c) (c_stages c) = Some g.
Proof.
  intros (_ & _ & _ & _ & _ & _ & Hp & _). unfold pipe_new in Hp. apply bind_Some in Hp as (g & Hg' & _). destruct (pipeline_graph _ _ _) as [g'|] eqn:E; [by exists g'|]. by rewrite pipeline_new_none in Hg'.
Qed.
Lemma settled s : inv s -> all_tidy s -> quiet s -> forall k c n, cs !! k = Some c -> t_nodes clean s !! k = Some n ->
  exists B, now s (c_sources c) (after (n_done clean n)) /\ query sortv c (after (n_done clean n)) B
    /\ shows clean (c_target c) B (apply_ops no_objects (n_written clean n)) /\ Forall (emitted (c_target c)) (n_written clean n).
Proof.
  intros I T Q k c n Hc Hn. destruct (i_node s I k n Hn) as (c' & p0 & Hc' & Hp & N). rewrite Hc in Hc'. injection Hc' as <-. assert (Cf := conf _ _ _ Hc Hp).
  destruct (Q n) as (On & Pe & Qe); [by eapply elem_of_list_lookup_2|]. assert (HH := node_history sortv (o k) c p0 _ n N).
  assert (Em := node_emitted sortv (o k) c p0 (Ho k) Cf _ n Hex N (T k c n Hc Hn)). rewrite Pe, app_nil_r in Em. destruct (graph_of c p0 Cf) as [g Hg].
  destruct N as [(outs & R1 & R2) _ K _ _ A _]. rewrite Pe, app_nil_r in R2. destruct Cf as (Hgv & Hs & ND & Hu & Hok & Hj & Hp0 & _).
  destruct (c19_core clean sortv (c_target c) (c_sources c) (c_join c) (c_stages c) g p0 (o k) (n_done clean n) (n_pipe clean n) outs) as (acc & B & Ha & HB & Sh & _); try done.
  { intros pre post acc B E Ha HB. apply (T k c n Hc Hn pre post B E). exists g, acc. done. }
  exists B. rewrite R2 in Sh. split_and!; [|by exists g, acc|done|done].
  intros x i m. destruct (decide (x ∈ c_sources c)) as [Hx|Hx].
  - specialize (A On x i Hx). unfold past in A. rewrite Qe, app_nil_r, after_on in A. rewrite A, (objects_eq s I). unfold cur. naive_solver.
  - rewrite <- after_on. replace (List.filter (on x) (n_done clean n)) with (@nil delta); [unfold after; cbn; rewrite lookup_empty; naive_solver|].
    symmetry. clear - K Hx. induction K as [|d ds Hd K IH]; [done|]. cbn [List.filter]. unfold on at 1. rewrite bool_decide_eq_false_2 by (by intros <-). done.
Qed.
Lemma settled_view s : inv s -> forall k c n, cs !! k = Some c -> t_nodes clean s !! k = Some n -> is_view_kind (c_target c) = true ->
  objects_of clean s (c_target c) = cache_of (t_views clean s) (c_target c).
Proof.
  intros I k c n Hc Hn V. rewrite (objects_eq s I). unfold objs. replace (made_by (c_target c)) with true; [done|]. symmetry. unfold made_by. rewrite V. cbn. apply existsb_exists. exists c. split; [by eapply elem_of_list_In, elem_of_list_lookup_2|]. by apply bool_decide_eq_true.
Qed.
Lemma emitted_plain x ds i m : gvk_ok x -> Forall (emitted x) ds -> apply_ops no_objects ds i = Some m -> plain i.
Proof.
  intros G. induction ds as [|d ds IH] using rev_ind; [done|]. intros F. apply Forall_app in F as [F Fd]. unfold apply_ops. rewrite foldl_app. cbn [foldl]. unfold apply_op at 1. case_decide as E; [|by apply IH].
  intros _. apply Forall_cons in Fd as [(_ & a & j & C & Hj & P & Ed) _]. subst i. rewrite Ed. by destruct (encapsulate_ok x a j) as (-> & _); [by apply clean_owf|..].
Qed.
Lemma settled_exact s : inv s -> all_tidy s -> quiet s -> forall k c n, cs !! k = Some c -> t_nodes clean s !! k = Some n -> is_view_kind (c_target c) = true -> Forall (fun d => bare (d_obj d)) (n_written clean n) ->
  forall i, stripped <$> held_plain (objects_of clean s (c_target c)) i = apply_ops no_objects (n_written clean n) i.
Proof.
  intros I T Q k c n Hc Hn V B i. rewrite (settled_view s I k c n) by done. destruct (settled s I T Q k c n Hc Hn) as (_ & _ & _ & _ & Em).
  destruct (plain_dec i) as [Pi|Pi].
  - assert (X := i_target s I k n c Hn Hc V i Pi). destruct (apply_ops no_objects (n_written clean n) i) as [m|]; [|by rewrite X]. destruct X as (m' & -> & _ & R). cbn. by rewrite R.
  - rewrite held_plain_out by done. destruct (apply_ops no_objects (n_written clean n) i) as [m|] eqn:E; [|done]. destruct Pi. eapply (emitted_plain (c_target c)); [|done..].
    destruct (i_node s I k n Hn) as (c' & p0 & Hc' & Hp & _). rewrite Hc in Hc'. injection Hc' as <-. apply (conf _ _ _ Hc Hp).
Qed.
End net.
