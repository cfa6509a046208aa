(** Proofs about controllers that work together: where they come to rest. *)
From Verif Require Import NetModel ZSetSpec OpsSpec GatherSpec ExecSpec JsonSpec CleanSpec PipelineSpec GroupSpec ValueSpec ViewSpec WriterSpec NetSpec.
From Verif Require Import JsonProofs CleanProofs ReconcileProofs ObjProofs ConvertProofs TargetProofs PipeProofs PipeProofs2 PipeProofs3 PipeProofs4 RetryProofs OptProofs ViewProofs ViewProofs2.
From Verif Require Import NetProofs2 NetProofs3 NetProofs4 NetProofs5 NetProofs6.

Section net.
Context {FF : FloatFmt}.
#[local] Hint Extern 0 Docs => exact (json_docs_on clean) : typeclass_instances.
Variable sortv : list json -> list json.
Variables (hash : string -> string) (o1 o2 : nat -> order).
Variable cs : list config.
Variable ps : list (pipe clean).
Hypothesis Hex : exact clean.
Hypothesis Ho1 : forall k, order_ok (o1 k).
Hypothesis Ho2 : forall k, order_ok (o2 k).
Hypothesis Hh : forall t, hash t <> EmptyString /\ utf8_ok (hash t) = true.
Hypothesis Hcs : Forall2 config_ok cs ps.
Hypothesis Hdet : Forall (fun c => Forall (op_posdet sortv) (c_stages c)) cs.

Lemma query_unique c p w B1 B2 : config_ok c p -> Forall (op_posdet sortv) (c_stages c) -> query sortv c w B1 -> query sortv c w B2 -> zwf B1 /\ zwf B2 /\ zeq B1 B2.
Proof.
  intros (_ & Hs & ND & Hu & _ & Hj & _) Hd (g & acc1 & Hg & I1 & X1) (g' & acc2 & Hg' & I2 & X2). rewrite Hg in Hg'. injection Hg' as <-.
  split; [by eapply exec_scratch_wf|]. split; [by eapply exec_scratch_wf|].
  eapply (@exec_scratch_unique (json_docs_on clean) sortv (map gvk_kind (c_sources c)) (c_join c) (c_stages c) g acc1 acc2); eauto.
  intros kd Hk. destruct (I1 kd Hk) as (a1 & E1 & W1 & C1), (I2 kd Hk) as (a2 & E2 & W2 & C2).
  exists a1, a2. split_and!; try done; [by eapply inputs_nonneg|by eapply inputs_nonneg|]. intros k. exact (eq_trans (C1 k) (eq_sym (C2 k))).
Qed.
Lemma same_views s1 s2 : inv sortv hash o1 cs ps s1 -> inv sortv hash o2 cs ps s2 -> all_tidy sortv cs s1 -> all_tidy sortv cs s2 -> quiet s1 -> quiet s2 ->
  acyclic cs -> (forall n, n ∈ t_nodes clean s1 \/ n ∈ t_nodes clean s2 -> Forall (fun d => bare (d_obj d)) (n_written clean n)) ->
  (forall x i, made clean s1 x = false -> stripped <$> held_plain (objects_of clean s1 x) i = stripped <$> held_plain (objects_of clean s2 x) i) ->
  (forall x i, stripped <$> held_plain (objects_of clean s1 x) i = stripped <$> held_plain (objects_of clean s2 x) i)
  /\ forall k n1 n2 i, t_nodes clean s1 !! k = Some n1 -> t_nodes clean s2 !! k = Some n2 -> apply_ops no_objects (n_written clean n1) i = apply_ops no_objects (n_written clean n2) i.
Proof.
  intros I1 I2 T1 T2 Q1 Q2 [rank Hr] Bw Out.
  assert (Node : forall k c n1 n2, cs !! k = Some c -> t_nodes clean s1 !! k = Some n1 -> t_nodes clean s2 !! k = Some n2 ->
     (forall x i, x ∈ c_sources c -> stripped <$> held_plain (objects_of clean s1 x) i = stripped <$> held_plain (objects_of clean s2 x) i) ->
     forall i, apply_ops no_objects (n_written clean n1) i = apply_ops no_objects (n_written clean n2) i).
  { intros k c n1 n2 Hc H1 H2 Src. destruct (settled sortv hash o1 cs ps Hex Ho1 Hh Hcs s1 I1 T1 Q1 k c n1 Hc H1) as (B1 & W1 & X1 & S1 & _).
    destruct (settled sortv hash o2 cs ps Hex Ho2 Hh Hcs s2 I2 T2 Q2 k c n2 Hc H2) as (B2 & W2 & X2 & S2 & _).
    assert (Ew : after (n_done clean n1) = after (n_done clean n2)).
    { apply map_eq. intros [x i]. apply option_eq. intros m. rewrite (W1 x i m), (W2 x i m). split; intros [Hx Hm]; (split; [done|]); [by rewrite <- Src|by rewrite Src]. }
    rewrite Ew in X1. destruct (i_node _ _ _ _ _ s1 I1 k n1 H1) as (c' & p0 & Hc' & Hp & _). rewrite Hc in Hc'. injection Hc' as <-. rewrite Forall_forall in Hdet.
    destruct (query_unique c p0 _ B1 B2 (conf _ _ Hcs _ _ _ Hc Hp) (Hdet c (elem_of_list_lookup_2 _ _ _ Hc)) X1 X2) as (Wf1 & Wf2 & Eq). by eapply (shows_eq clean (c_target c) B1 B2). }
  assert (Get : forall s o, inv sortv hash o cs ps s -> forall k c, cs !! k = Some c -> exists n, t_nodes clean s !! k = Some n).
  { intros s o I k c Hc. apply lookup_lt_is_Some_2. rewrite (i_len _ _ _ _ _ s I). by eapply lookup_lt_Some. }
  assert (View : forall r k c, rank k = r -> cs !! k = Some c -> is_view_kind (c_target c) = true -> forall i,
     stripped <$> held_plain (objects_of clean s1 (c_target c)) i = stripped <$> held_plain (objects_of clean s2 (c_target c)) i).
  { induction r as [r IH] using lt_wf_ind. intros k c Er Hc V i.
    destruct (Get s1 o1 I1 k c Hc) as [n1 H1], (Get s2 o2 I2 k c Hc) as [n2 H2].
    rewrite (settled_exact sortv hash o1 cs ps Hex Ho1 Hh Hcs s1 I1 T1 Q1 k c n1) by (first [done|apply Bw; left; by eapply elem_of_list_lookup_2]).
    rewrite (settled_exact sortv hash o2 cs ps Hex Ho2 Hh Hcs s2 I2 T2 Q2 k c n2) by (first [done|apply Bw; right; by eapply elem_of_list_lookup_2]).
    apply (Node k c n1 n2 Hc H1 H2). intros x j Hx. destruct (made clean s1 x) eqn:M; [|by apply Out]. rewrite (made_eq sortv hash o1 cs ps Ho1 Hcs s1 I1) in M. unfold made_by in M. apply andb_true_iff in M as [Vx M].
    apply existsb_exists in M as (c' & Hin & Ec). apply bool_decide_eq_true in Ec. subst x. apply elem_of_list_In, elem_of_list_lookup in Hin as [k' Hk']. apply (IH (rank k')) with (k := k'); [|done..]. subst r. by eapply Hr. }
  assert (All : forall x i, stripped <$> held_plain (objects_of clean s1 x) i = stripped <$> held_plain (objects_of clean s2 x) i).
  { intros x i. destruct (made clean s1 x) eqn:M; [|by apply Out]. rewrite (made_eq sortv hash o1 cs ps Ho1 Hcs s1 I1) in M. unfold made_by in M. apply andb_true_iff in M as [Vx M].
    apply existsb_exists in M as (c' & Hin & Ec). apply bool_decide_eq_true in Ec. subst x. apply elem_of_list_In, elem_of_list_lookup in Hin as [k' Hk']. by eapply View. }
  split; [done|]. intros k n1 n2 i H1 H2. destruct (i_node _ _ _ _ _ s1 I1 k n1 H1) as (c & p0 & Hc & _). by apply (Node k c n1 n2 Hc H1 H2).
Qed.
End net.
