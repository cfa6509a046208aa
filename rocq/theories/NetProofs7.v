(** Proofs about controllers that work together: they come to rest. *)
From Verif Require Import NetModel ZSetSpec OpsSpec GatherSpec ExecSpec JsonSpec CleanSpec PipelineSpec GroupSpec ValueSpec ViewSpec WriterSpec NetSpec.
From Verif Require Import JsonProofs CleanProofs ReconcileProofs ObjProofs ConvertProofs TargetProofs PipeProofs PipeProofs2 PipeProofs3 PipeProofs4 RetryProofs OptProofs ViewProofs ViewProofs2.
From Verif Require Import NetProofs2 NetProofs3 NetProofs4 NetProofs5 NetProofs6.

(** ** A well-founded order *)
Definition lexN (N : nat) (m' m : nat -> nat) : Prop := exists i, (i < N)%nat /\ (m' i < m i)%nat /\ forall j, (j < i)%nat -> m' j = m j.
Lemma lexN_wf N : forall m, Acc (lexN N) m.
Proof.
  induction N as [|N IH]; intros m; [constructor; intros m' (i & H & _); lia|].
  remember (m O) as a eqn:Ea. revert m Ea. induction a as [a IHa] using lt_wf_ind. intros m Ea.
  assert (Hs := IH (fun i => m (S i))). remember (fun i => m (S i)) as t eqn:Et. revert m Ea Et. induction Hs as [t _ IHt]. intros m Ea Et.
  constructor. intros m' (i & Hi & Hl & He). destruct i as [|i].
  - apply (IHa (m' O)); [lia|done].
  - apply (IHt (fun i => m' (S i))); [|by rewrite He by lia|done]. exists i. subst t. split_and!; [lia|done|]. intros j Hj. apply He. lia.
Qed.
Section sums.
Context {A : Type} (f : A -> nat).
Fixpoint msum (rk : nat -> nat) (r : nat) (l : list A) : nat :=
  match l with [] => 0%nat | n :: l => ((if bool_decide (rk 0%nat = r) then f n else 0) + msum (fun i => rk (S i)) r l)%nat end.
Lemma msum_le l : forall rk r l', length l' = length l -> (forall j n n', l !! j = Some n -> l' !! j = Some n' -> rk j = r -> (f n' <= f n)%nat) -> (msum rk r l' <= msum rk r l)%nat.
Proof.
  induction l as [|n l IH]; intros rk r [|n' l'] L H; try done. cbn [msum]. apply Nat.add_le_mono.
  - case_bool_decide; [|done]. by apply (H 0%nat).
  - apply IH; [by injection L|]. intros j. by apply (H (S j)).
Qed.
Lemma msum_eq l rk r l' : length l' = length l -> (forall j n n', l !! j = Some n -> l' !! j = Some n' -> rk j = r -> f n' = f n) -> msum rk r l' = msum rk r l.
Proof.
  intros L H. apply Nat.le_antisymm; apply msum_le; try done; intros j n n' H1 H2 H3; [by rewrite (H j n n')|by rewrite (H j n' n)].
Qed.
Lemma msum_lt l : forall rk r l' k, length l' = length l -> (forall j n n', l !! j = Some n -> l' !! j = Some n' -> rk j = r -> (f n' <= f n)%nat) ->
  rk k = r -> (exists n n', l !! k = Some n /\ l' !! k = Some n' /\ (f n' < f n)%nat) -> (msum rk r l' < msum rk r l)%nat.
Proof.
  induction l as [|n l IH]; intros rk r [|n' l'] k L H Hk (a & b & H1 & H2 & H3); try done. cbn [msum]. destruct k as [|k].
  - injection H1 as ->. injection H2 as ->. rewrite bool_decide_eq_true_2 by done. apply Nat.add_lt_le_mono; [done|]. apply msum_le; [by injection L|]. intros j. by apply (H (S j)).
  - apply Nat.add_le_lt_mono.
    + case_bool_decide; [|done]. by apply (H 0%nat).
    + apply (IH _ _ _ k); [by injection L| |done|by exists a, b]. intros j. by apply (H (S j)).
Qed.
Lemma sum_lt l (g h : A -> nat) x : x ∈ l -> (forall y, (g y <= h y)%nat) -> (g x < h x)%nat -> (list_sum (map g l) < list_sum (map h l))%nat.
Proof.
  intros Hx Hle Hlt. assert (Le : forall l, (list_sum (map g l) <= list_sum (map h l))%nat). { clear - Hle. induction l as [|y l IH]; cbn; [done|]. specialize (Hle y). fold (list_sum (map g l)) (list_sum (map h l)). lia. }
  induction Hx as [y l|y z l Hx IH]; cbn.
  - specialize (Le l). unfold list_sum in *. lia.
  - specialize (Hle z). specialize (IH Hlt). unfold list_sum in *. lia.
Qed.
End sums.

Section net.
Context {FF : FloatFmt}.
#[local] Hint Extern 0 Docs => exact (json_docs_on clean) : typeclass_instances.
Variable sortv : list json -> list json.
Variable hash : string -> string.
Variable lister : store -> list jobj.
Variable o : nat -> order.
Variable cs : list config.
Variable ps : list (pipe clean).
Notation node := (node clean).
Notation net := (net clean).
Hypothesis Hex : exact clean.
Hypothesis Ho : forall k, order_ok (o k).
Hypothesis Hl : lists_all lister.
Hypothesis Hh : forall t, hash t <> EmptyString /\ utf8_ok (hash t) = true.
Hypothesis Hcs : Forall2 config_ok cs ps.
Hypothesis Hap : apart_targets cs.
Notation inv := (inv sortv hash o cs ps).
Notation all_tidy := (all_tidy sortv cs).
Notation step := (net_step clean sortv hash lister o).

Lemma simple_unique c p : config_ok c p -> simple c -> unique_names sortv c.
Proof.
  intros Cf ([x Ex] & Ej & Hk) ds B HH HN (g & acc & Hg & Ha & HB). rewrite Ej in Hg.
  eapply (keeps_functional clean sortv x (c_stages c) g (c_sources c) ds ds []); eauto. by rewrite app_nil_r.
Qed.
Section unique.
Hypothesis Hun : Forall (unique_names sortv) cs.
Lemma inv_tidy s : inv s -> all_tidy s.
Proof.
  intros I k c n Hc Hn pre post B Ed Q. destruct (i_node _ _ _ _ _ s I k n Hn) as (c' & p0 & Hc' & Hp & N). rewrite Hc in Hc'. injection Hc' as <-.
  assert (HH := node_history sortv (o k) c p0 _ n N). assert (Nm := node_named sortv (o k) c p0 _ n N). rewrite Ed in HH, Nm. apply history_app in HH as [HH _]. apply Forall_app in Nm as [Nm _].
  rewrite Forall_forall in Hun. eapply (Hun c); [by eapply elem_of_list_lookup_2|exact HH|exact Nm|exact Q].
Qed.
Lemma inv_reach l : forall s s', Forall act_fit l -> inv s -> net_run clean sortv hash lister o s l = Some s' -> inv s'.
Proof.
  induction l as [|a l IH]; intros s s' F I E; cbn [net_run] in E; [by injection E as <-|]. apply bind_Some in E as (s1 & E1 & E). apply Forall_cons in F as [Fa F].
  apply (IH s1 s'); [done| |done]. eapply (inv_step sortv hash lister o cs ps); eauto. by apply inv_tidy.
Qed.
Section progress.
Hypothesis Htot : Forall never_fails cs.
Lemma progress s : inv s -> running s -> quiet s \/ exists a s', own_step a /\ step s a = Some s'.
Proof.
  intros I Ru. assert (T := inv_tidy s I). assert (IN := i_node _ _ _ _ _ s I). assert (IV := i_views _ _ _ _ _ s I). destruct s as [outer views nodes]. cbn [t_nodes t_views] in *.
  destruct (Forall_Exists_dec (fun n => length (n_pending clean n) = 0%nat) (fun n => length (n_pending clean n) <> 0%nat) (fun n => decide (length (n_pending clean n) = 0%nat)) nodes) as [P|P].
  - destruct (Forall_Exists_dec (fun n => Forall (fun x => length (n_queue clean n x) = 0%nat) (p_sources clean (n_pipe clean n))) (fun n => ~ Forall (fun x => length (n_queue clean n x) = 0%nat) (p_sources clean (n_pipe clean n))) (fun n => decide _) nodes) as [Q|Q].
    + left. intros n Hn. split; [by apply Ru|]. rewrite Forall_forall in P, Q. split; [by apply nil_length_inv, P|]. intros x. apply elem_of_list_lookup in Hn as [k Hk].
      destruct (IN k n Hk) as (c & p0 & Hc & Hp & N). destruct (node_kinds sortv (o k) c p0 (Ho k) (conf _ _ Hcs _ _ _ Hc Hp) _ n N) as [_ Es].
      destruct (decide (x ∈ c_sources c)) as [Hx|Hx]; [|by apply (no_other _ _ _ _ _ _ N)]. specialize (Q n (elem_of_list_lookup_2 _ _ _ Hk)). rewrite Es, Forall_forall in Q. by apply nil_length_inv, Q.
    + right. apply Exists_exists in Q as (n & Hn & Q). apply elem_of_list_lookup in Hn as [k Hk]. destruct (IN k n Hk) as (c & p0 & Hc & Hp & N). assert (Cf := conf _ _ Hcs _ _ _ Hc Hp).
      destruct (node_kinds sortv (o k) c p0 (Ho k) Cf _ n N) as [_ Es].
      apply not_Forall_Exists in Q; [|intros x; apply _]. apply Exists_exists in Q as (x & Hx & Q). cbn beta delta [compose] in Q. destruct (n_queue clean n x) as [|d q] eqn:Eq; [done|]. rewrite Es in Hx.
      assert (Pe : n_pending clean n = []). { rewrite Forall_forall in P. by eapply nil_length_inv, P, elem_of_list_lookup_2. }
      assert (Hev : exists p ops, evaluate clean sortv (osub (o k) (length (n_done clean n))) (n_pipe clean n) d = (p, Some ops)).
      { destruct (graph_of c p0 Cf) as [g Hg]. destruct Cf as (Hgv & Hs & ND & Hu & Hok & Hj & Hp0 & _). rewrite Forall_forall in Htot, Hun. destruct (Htot c) as [Ht1 Ht2]; [by eapply elem_of_list_lookup_2|].
        assert (Gd : get_gvk (d_obj d) = x). { assert (Hk' := history_kind x _ (no_hist _ _ _ _ _ _ N x Hx)). unfold past in Hk'. rewrite Eq in Hk'. apply Forall_app in Hk' as [_ Hk']. by apply Forall_cons in Hk' as [? _]. }
        assert (HH : history_ok clean (c_sources c) ∅ (n_done clean n ++ [d])).
        { apply history_merge. { apply Forall_app. split; [by apply (no_kinds _ _ _ _ _ _ N)|]. constructor; [by rewrite Gd|constructor]. }
          intros y Hy. assert (Hi := no_hist _ _ _ _ _ _ N y Hy). unfold past in Hi. rewrite List.filter_app. cbn [List.filter]. unfold on at 2. destruct (decide (y = x)) as [->|Ny].
          - rewrite Gd, bool_decide_eq_true_2 by done. rewrite Eq in Hi. change (d :: q) with ([d] ++ q) in Hi. rewrite app_assoc in Hi. by apply history_app in Hi as [Hi _].
          - rewrite Gd, bool_decide_eq_false_2 by congruence. rewrite app_nil_r. by apply history_app in Hi as [Hi _]. }
        assert (Nm : named_history (n_done clean n ++ [d])).
        { apply Forall_app. split; [by eapply node_named|]. assert (X := no_named _ _ _ _ _ _ N x Hx). unfold past in X. rewrite Eq in X. apply Forall_app in X as [_ X]. apply Forall_cons in X as [X _]. by constructor. }
        destruct (c19_total clean sortv (c_target c) (c_sources c) (c_join c) (c_stages c) g p0 (o k) (n_done clean n ++ [d])) as (p' & outs & R); try done.
        { intros jev Ej. split; [by apply Hj|by apply Ht2]. }
        { intros pre post acc B E Ha HB. rewrite E in HH, Nm. apply history_app in HH as [HH _]. apply Forall_app in Nm as [Nm _]. eapply (Hun c); [by eapply elem_of_list_lookup_2|exact HH|exact Nm|]. exists g, acc. done. }
        destruct (no_run _ _ _ _ _ _ N) as (outs0 & R0 & _). destruct (pipe_run_app clean sortv _ _ _ _ _ _ _ R) as (p1 & R1 & R2).
        rewrite R0 in R1. injection R1 as <- _. cbn [pipe_run] in R2. destruct (evaluate _ _ _ _ _) as [p2 [ops|]] eqn:Ev; [eauto|]. by destruct (drop _ outs). }
      destruct Hev as (p & ops & Ev). exists (NWork k x). cbn [net_step own_step]. rewrite Hk. cbn [mbind option_bind]. rewrite Pe, Eq. match goal with |- context [@evaluate ?a0 ?a ?b ?c1 ?c2 ?e] => assert (E1 : @evaluate a0 a b c1 c2 e = (p, Some ops)) by exact Ev; rewrite E1 end. eauto.
  - right. apply Exists_exists in P as (n & Hn & P). apply elem_of_list_lookup in Hn as [k Hk]. destruct (IN k n Hk) as (c & p0 & Hc & Hp & N). assert (Cf := conf _ _ Hcs _ _ _ Hc Hp).
    destruct (n_pending clean n) as [|d ds] eqn:Pe; [done|]. exists (NWrite k). cbn [net_step own_step]. rewrite Hk. cbn [mbind option_bind]. rewrite Pe. destruct (node_kinds sortv (o k) c p0 (Ho k) Cf _ n N) as [Et _]. rewrite Et.
    assert (Em : emitted (c_target c) d).
    { assert (X := node_emitted sortv (o k) c p0 (Ho k) Cf _ n Hex N (T k c n Hc Hk)). rewrite Pe in X. apply Forall_app in X as [_ X]. by apply Forall_cons in X as [X _]. }
    destruct (is_view_kind (c_target c)) eqn:V; [|eauto]. destruct IV as [w Hw]. destruct Cf as (Hg & _ & _ & _ & _ & _ & _ & Hv). destruct (Hv V) as [Ox Cx].
    destruct (view_step hash (fun t => proj1 (Hh t)) (fun t => proj2 (Hh t)) (c_target c) Hg Ox Cx views w d Hw Em) as (c' & es & w' & Ew & _). rewrite Ew. eauto.
Qed.

(** *** Each step makes the measure smaller *)
Definition waiting (n : node) : nat := list_sum (map (fun x => length (n_queue clean n x)) (p_sources clean (n_pipe clean n))).
Definition unwritten (n : node) : nat := length (n_pending clean n).
Variable rank : nat -> nat.
Hypothesis Hrank : forall j k c c', cs !! j = Some c -> cs !! k = Some c' -> is_view_kind (c_target c) = true -> c_target c ∈ c_sources c' -> (rank j < rank k)%nat.
Definition meas (nodes : list node) (i : nat) : nat :=
  if Nat.even i then msum waiting rank (Nat.div2 i) nodes else msum unwritten rank (Nat.div2 i) nodes.
Definition bound : nat := S (list_sum (map rank (seq 0 (length cs)))).
Lemma rank_bound k : (k < length cs)%nat -> (rank k < bound)%nat.
Proof.
  intros H. unfold bound. assert (G : forall l, k ∈ l -> (rank k <= list_sum (map rank l))%nat).
  { induction 1 as [l|y l Hx IH]; cbn; unfold list_sum in *; lia. }
  specialize (G (seq 0 (length cs))). apply Nat.lt_succ_r, G. apply elem_of_seq. lia.
Qed.
Lemma meas_even r nodes : meas nodes (2 * r) = msum waiting rank r nodes.
Proof. unfold meas. rewrite Nat.even_mul. cbn [Nat.even orb]. by rewrite Nat.div2_double. Qed.
Lemma meas_odd r nodes : meas nodes (S (2 * r)) = msum unwritten rank r nodes.
Proof. unfold meas. rewrite Nat.even_succ, Nat.odd_mul. cbn [Nat.odd Nat.even andb negb]. by rewrite Nat.div2_succ_double. Qed.
Lemma index_cases i : exists r, i = (2 * r)%nat \/ i = S (2 * r).
Proof. destruct (Nat.Even_or_Odd i) as [[r ->]|[r ->]]; exists r; [by left|right; lia]. Qed.
Lemma tell_waiting x e n : x ∉ p_sources clean (n_pipe clean n) -> waiting (tell clean [(x, e)] n) = waiting n.
Proof.
  intros Hx. unfold waiting, tell. destruct (n_on clean n); [|done]. cbn [n_queue n_pipe]. f_equal. apply map_ext_in. intros y Hy. apply elem_of_list_In in Hy. rewrite decide_True by done.
  cbn [List.filter fst]. rewrite bool_decide_eq_false_2 by (by intros ->). cbn. by rewrite app_nil_r.
Qed.
Lemma tell_none n : waiting (tell clean [] n) = waiting n.
Proof.
  unfold waiting, tell. destruct (n_on clean n); [|done]. cbn [n_queue n_pipe]. f_equal. apply map_ext_in. intros y Hy. case_decide; cbn; by rewrite app_nil_r.
Qed.
Lemma tell_unwritten es n : unwritten (tell clean es n) = unwritten n.
Proof. unfold unwritten, tell. by destruct (n_on clean n). Qed.
Lemma step_less s a s' : inv s -> own_step a -> step s a = Some s' -> lexN (2 * bound) (meas (t_nodes clean s')) (meas (t_nodes clean s)).
Proof.
  intros I Oa E. assert (T := inv_tidy s I). assert (IN := i_node _ _ _ _ _ s I). assert (IV := i_views _ _ _ _ _ s I). assert (IL := i_len _ _ _ _ _ s I). destruct s as [outer views nodes]. cbn [t_nodes t_views] in *.
  destruct a as [m|x ns name|j|j x|j]; try done; cbn [net_step] in E.
  - apply bind_Some in E as (n & Hj & E). destruct (n_pending clean n) eqn:Pe; [|done]. destruct (n_queue clean n x) as [|d q] eqn:Eq; [done|]. destruct (evaluate _ _ _ _ _) as [p [ops|]] eqn:Ev; [|done]. injection E as <-. cbn [t_nodes].
    destruct (IN j n Hj) as (c & p0 & Hc & Hp & N). assert (Cf := conf _ _ Hcs _ _ _ Hc Hp). assert (N' := node_work sortv (o j) c p0 _ n x d q p ops N Pe Eq Ev).
    destruct (node_kinds sortv (o j) c p0 (Ho j) Cf _ n N) as [_ Es]. destruct (node_kinds sortv (o j) c p0 (Ho j) Cf _ _ N') as [_ Es'].
    set (n' := Node clean _ _ _ _ _ _) in *. assert (Lj := lookup_lt_Some _ _ _ Hj). assert (Hx : x ∈ c_sources c). { destruct (decide (x ∈ c_sources c)) as [?|Nx]; [done|]. by rewrite (no_other _ _ _ _ _ _ N x Nx) in Eq. }
    assert (Wn : (waiting n' < waiting n)%nat).
    { unfold waiting. rewrite Es, Es'. apply (sum_lt _ _ _ x Hx).
      - intros y. cbn [n_queue n']. case_decide; [subst; rewrite Eq; cbn; lia|done].
      - cbn [n_queue n']. rewrite decide_True, Eq by done. cbn. lia. }
    assert (Same : forall k m m', k <> j -> nodes !! k = Some m -> <[j := n']> nodes !! k = Some m' -> m' = m) by (intros k m m' Nk H1; rewrite list_lookup_insert_ne by done; congruence).
    assert (At : forall m m', nodes !! j = Some m -> <[j := n']> nodes !! j = Some m' -> m = n /\ m' = n') by (intros m m' H1; rewrite list_lookup_insert by done; intros [= <-]; split; congruence).
    exists (2 * rank j)%nat. split_and!.
    + assert (Hb := rank_bound j). lia.
    + rewrite !meas_even. apply (msum_lt _ _ _ _ _ j); [by rewrite insert_length| |done|].
      * intros k m m' H1 H2 _. destruct (decide (k = j)) as [->|Nk]; [destruct (At m m' H1 H2) as [-> ->]; lia|]. by rewrite (Same k m m').
      * exists n, n'. by rewrite list_lookup_insert.
    + intros i Hi. destruct (index_cases i) as (r & [-> | ->]); rewrite ?meas_even, ?meas_odd; (apply msum_eq; [by rewrite insert_length|]); intros k m m' H1 H2 Hr; (destruct (decide (k = j)) as [->|Nk]; [lia|]); by rewrite (Same k m m').
  - apply bind_Some in E as (n & Hj & E). destruct (n_pending clean n) as [|d ds] eqn:Pe; [done|].
    destruct (IN j n Hj) as (c & p0 & Hc & Hp & N). assert (Cf := conf _ _ Hcs _ _ _ Hc Hp). destruct (node_kinds sortv (o j) c p0 (Ho j) Cf _ n N) as [Et _]. rewrite Et in E.
    set (n1 := Node clean (n_pipe clean n) (n_on clean n) (n_queue clean n) (n_done clean n) ds (n_written clean n ++ [d])) in *. assert (Lj := lookup_lt_Some _ _ _ Hj).
    assert (Core : forall nodes', length nodes' = length nodes ->
       (forall k m', nodes' !! k = Some m' -> exists m, <[j := n1]> nodes !! k = Some m /\ unwritten m' = unwritten m /\ ((rank k <= rank j)%nat -> waiting m' = waiting m)) ->
       lexN (2 * bound) (meas nodes') (meas nodes)).
    { intros nodes' L H. assert (Same : forall k m m', k <> j -> nodes !! k = Some m -> nodes' !! k = Some m' -> unwritten m' = unwritten m /\ ((rank k <= rank j)%nat -> waiting m' = waiting m)).
      { intros k m m' Nk H1 H2. destruct (H k m' H2) as (m0 & H3 & H4). rewrite list_lookup_insert_ne in H3 by done. assert (m0 = m) by congruence. by subst m0. }
      assert (At : forall m m', nodes !! j = Some m -> nodes' !! j = Some m' -> m = n /\ unwritten m' = length ds /\ waiting m' = waiting n).
      { intros m m' H1 H2. destruct (H j m' H2) as (m0 & H3 & H4 & H5). rewrite list_lookup_insert in H3 by done. injection H3 as <-. split; [congruence|]. split; [by rewrite H4|]. by rewrite H5. }
      exists (S (2 * rank j)). split_and!.
      - assert (Hb := rank_bound j). lia.
      - rewrite !meas_odd. apply (msum_lt _ _ _ _ _ j); [done| |done|].
        + intros k m m' H1 H2 _. destruct (decide (k = j)) as [->|Nk]; [destruct (At m m' H1 H2) as (-> & -> & _); unfold unwritten; rewrite Pe; cbn; lia|]. destruct (Same k m m' Nk H1 H2) as [-> _]. done.
        + destruct (lookup_lt_is_Some_2 nodes' j) as [m' Hm']; [lia|]. exists n, m'. split_and!; [done..|]. destruct (At n m' Hj Hm') as (_ & -> & _). unfold unwritten. rewrite Pe. cbn. lia.
      - intros i Hi. destruct (index_cases i) as (r & [-> | ->]); rewrite ?meas_even, ?meas_odd; (apply msum_eq; [done|]); intros k m m' H1 H2 Hr.
        + destruct (decide (k = j)) as [->|Nk]; [by destruct (At m m' H1 H2) as (-> & _ & ->)|]. destruct (Same k m m' Nk H1 H2) as [_ W]. apply W. lia.
        + destruct (decide (k = j)) as [->|Nk]; [lia|]. by destruct (Same k m m' Nk H1 H2) as [-> _]. }
    destruct (is_view_kind (c_target c)) eqn:V.
    + assert (Em : emitted (c_target c) d).
      { assert (X := node_emitted sortv (o j) c p0 (Ho j) Cf _ n Hex N (T j c n Hc Hj)). rewrite Pe in X. apply Forall_app in X as [_ X]. by apply Forall_cons in X as [X _]. }
      destruct IV as [w Hw]. assert (Cf' := Cf). destruct Cf' as (Hg & _ & _ & _ & _ & _ & _ & Hv). destruct (Hv V) as [Ox Cx].
      destruct (view_step hash (fun t => proj1 (Hh t)) (fun t => proj2 (Hh t)) (c_target c) Hg Ox Cx views w d Hw Em) as (c' & es & w' & Ew & _ & Ch & _). rewrite Ew in E. injection E as <-. cbn [t_nodes].
      apply Core; [by rewrite map_length, insert_length|]. intros k m'. rewrite list_lookup_fmap. destruct (<[j := n1]> nodes !! k) as [m|] eqn:Hk; [|done]. intros [= <-]. exists m. split_and!; [done|apply tell_unwritten|].
      intros Hr. assert (Hs : c_target c ∉ p_sources clean (n_pipe clean m)).
      { assert (exists m0, nodes !! k = Some m0 /\ n_pipe clean m0 = n_pipe clean m) as (m0 & Hm0 & <-).
        { destruct (decide (j = k)) as [->|Nk]; [rewrite list_lookup_insert in Hk by done; injection Hk as <-; by exists n|]. rewrite list_lookup_insert_ne in Hk by done. by exists m. }
        destruct (IN k m0 Hm0) as (c2 & p2 & Hc2 & Hp2 & N2). destruct (node_kinds sortv (o k) c2 p2 (Ho k) (conf _ _ Hcs _ _ _ Hc2 Hp2) _ m0 N2) as [_ ->]. intros Hin. assert (Hlt := Hrank j k c c2 Hc Hc2 V Hin). lia. }
      destruct Ch as [[-> _]|[(v & e & _ & -> & _)|(old & _ & -> & _)]]; [apply tell_none|by apply tell_waiting|by apply tell_waiting].
    + injection E as <-. cbn [t_nodes]. apply Core; [by rewrite insert_length|]. intros k m' Hk. by exists m'.
Qed.
Lemma tell_on es n : n_on clean (tell clean es n) = n_on clean n.
Proof. unfold tell. by destruct (n_on clean n) eqn:E. Qed.
Lemma step_running s a s' : own_step a -> running s -> step s a = Some s' -> running s'.
Proof.
  intros Oa R E. destruct s as [outer views nodes]. unfold running in *. cbn [t_nodes] in R.
  assert (Ins : forall i n0 n1, nodes !! i = Some n0 -> n_on clean n1 = n_on clean n0 -> forall n, n ∈ <[i := n1]> nodes -> n_on clean n = true).
  { intros i n0 n1 Hi Ei n Hn. apply elem_of_list_lookup in Hn as [k Hk]. apply list_lookup_insert_Some in Hk as [(<- & <- & _)|(_ & Hk)]; [rewrite Ei|]; apply R; by eapply elem_of_list_lookup_2. }
  destruct a as [m|x ns name|j|j x|j]; try done; cbn [net_step] in E.
  - apply bind_Some in E as (n0 & Hj & E). destruct (n_pending clean n0); [|done]. destruct (n_queue clean n0 x) as [|d q]; [done|]. destruct (evaluate _ _ _ _ _) as [p [ops|]]; [|done]. injection E as <-. cbn [t_nodes]. by eapply Ins.
  - apply bind_Some in E as (n0 & Hj & E). destruct (n_pending clean n0) as [|d ds]; [done|]. destruct (is_view_kind _).
    + destruct (view_write _ _ _ _) as [[c es] []]; try done. injection E as <-. cbn [t_nodes]. intros n Hn. apply elem_of_list_fmap in Hn as (n' & -> & Hn). rewrite tell_on. by refine (Ins _ _ _ Hj _ n' Hn).
    + injection E as <-. cbn [t_nodes]. by eapply Ins.
Qed.
Lemma all_settle s : inv s -> running s -> settles step s.
Proof.
  intros I R. assert (A := lexN_wf (2 * bound) (meas (t_nodes clean s))). remember (meas (t_nodes clean s)) as m eqn:Em. revert s I R Em.
  induction A as [m _ IH]. intros s I R ->. constructor; [by apply progress|]. intros a s' Oa E.
  assert (I' : inv s'). { eapply (inv_step sortv hash lister o cs ps); eauto; [by destruct a|]. by apply inv_tidy. }
  eapply IH; [by eapply step_less|done|by eapply step_running|done].
Qed.
End progress.
End unique.
End net.
