(** Property C64: crashes and restarts. *)
From Verif Require Import LifeModel ZSetSpec OpsSpec GatherSpec ExecSpec JsonSpec CleanSpec PipelineSpec GroupSpec ValueSpec ViewSpec WriterSpec NetSpec LifeSpec.
From Verif Require Import ZSetProofs2 JsonProofs ObjProofs ConvertProofs PipeProofs PipeProofs2 PipeProofs3 ViewProofs NetProofs2 NetProofs3 NetProofs4 NetProofs5 NetProofs6 NetProofs7 LifeProofs SyncProofs ExecMisc GatherDet TestPipe PropsPipeline PropsWriter PropsNet.

(** The process may die at any time, any number of times, also in the middle of a write,
    and others may change the cluster while it is down.  When it has been started again
    and nothing waits any more, then for each controller all of its result for the current
    source objects is there: in the view, or as native objects in the cluster.  A view has
    nothing else.  A native object of the target's kind that is not in the result is still
    there only if it was there at the last start, exactly as it was.  Kinds that are no
    controller's target are not touched.
    Missing: the object that is not in the result should be gone, see C64_orphans_refuted;
    what is missing in C61; writes that fail (C33 says what is then in the cluster). *)
Theorem C64_restart_partial {FF : FloatFmt} : forall sortv hash has_status unconditional lister o cs ps c0 l w, fmt_ok -> fmt_inj ->
  setting hash lister o cs ps -> apart_all cs -> cluster_fit hash c0 -> Forall (lact_fit hash) l ->
  l_run clean sortv hash has_status unconditional lister o ps (Site clean (net0 clean ps) c0) l = Some w -> quiet (at_net clean w) -> tidy sortv cs (at_net clean w) ->
  (forall k c, cs !! k = Some c -> exists v B C, now (at_net clean w) (c_sources c) v /\ query sortv c v B /\ shows clean (c_target c) B C
    /\ if is_view_kind (c_target c)
       then forall i, plain i -> match C i with
            | Some m => exists m', held_plain (objects_of clean (at_net clean w) (c_target c)) i = Some m' /\ reflects (c_target c) m m'
            | None => held_plain (objects_of clean (at_net clean w) (c_target c)) i = None
            end
       else forall i, match C i with
            | Some m => exists m' old, stored (at_cluster clean w) (c_target c, i) = Some m' /\ holds has_status (c_target c) m old m'
            | None => stored (at_cluster clean w) (c_target c, i) = None \/ stored (at_cluster clean w) (c_target c, i) = stored (last_start c0 l) (c_target c, i)
            end)
  /\ forall j, proper j -> (forall c, c ∈ cs -> c_target c <> j.1) -> stored (at_cluster clean w) j = stored (last_start c0 l) j.
Proof.
  intros sortv hash has_status unconditional lister o cs ps c0 l w Hf Hi (Ho & Hl & Hh & Hcs & _) Hap F0 Fl R Q T. assert (Hex := exact_clean Hf Hi).
  destruct (lives sortv hash has_status unconditional lister o cs ps Hex Ho Hl Hh Hcs Hap c0 l w F0 Fl R) as [_ L]. specialize (L T). assert (I := l_net _ _ _ _ _ _ _ _ L). split.
  - intros k c Hc. assert (exists n, t_nodes clean (at_net clean w) !! k = Some n) as [n Hn]. { apply lookup_lt_is_Some_2. rewrite (i_len _ _ _ _ _ _ I). by eapply lookup_lt_Some. }
    destruct (settled sortv hash o cs ps Hex Ho Hh Hcs _ I T Q k c n Hc Hn) as (B & W & X & S & _). exists (after (n_done clean n)), B, (apply_ops no_objects (n_written clean n)). split_and!; [done..|].
    destruct (is_view_kind (c_target c)) eqn:V.
    + intros i Pi. rewrite (settled_view sortv hash o cs ps Ho Hcs _ I k c n) by done. assert (Tr := i_target _ _ _ _ _ _ I k n c Hn Hc V i Pi). destruct (apply_ops _ _ _) as [m|]; [|done]. destruct Tr as (m' & H1 & H2 & _). by exists m'.
    + intros i. assert (F := l_done _ _ _ _ _ _ _ _ L k n c Hn Hc V i). rewrite applied_last. destruct (last_for i _) as [d|]; [|by right]. case_decide; [by left|exact F].
  - intros j Pj Hj. apply (l_rest _ _ _ _ _ _ _ _ L j Pj). intros c Hc E. by destruct (Hj c Hc).
Qed.
Print Assumptions C64_restart_partial.

(** Whatever happened before, once all controllers are started again they come to rest: no
    state that a crash leaves behind makes a write fail or go on for ever. *)
Theorem C64_settles_partial {FF : FloatFmt} : forall sortv hash has_status unconditional lister o cs ps c0 l w, fmt_ok -> fmt_inj ->
  setting hash lister o cs ps -> apart_all cs -> cluster_fit hash c0 -> Forall (lact_fit hash) l ->
  l_run clean sortv hash has_status unconditional lister o ps (Site clean (net0 clean ps) c0) l = Some w ->
  Forall (unique_names sortv) cs -> Forall never_fails cs -> acyclic cs -> running (at_net clean w) ->
  tidy sortv cs (at_net clean w) /\ calms (l_step clean sortv hash has_status unconditional lister o ps) w.
Proof.
  intros sortv hash has_status unconditional lister o cs ps c0 l w Hf Hi (Ho & Hl & Hh & Hcs & Hap') Hap F0 Fl R Hu Ht [rank Hr] Ru. assert (Hex := exact_clean Hf Hi).
  assert (L := lives_unique sortv hash has_status unconditional lister o cs ps Hex Ho Hl Hh Hcs Hap Hu c0 l w F0 Fl R). split; [apply (inv_tidy sortv hash o cs ps Hu), (l_net _ _ _ _ _ _ _ _ L)|].
  eapply (linv_calms sortv hash has_status unconditional lister o cs ps Hex Ho Hl Hh Hcs Hap Hu); [|done|exact L].
  apply (all_settle sortv hash lister o cs ps Hex Ho Hl Hh Hcs Hap' Hu Ht rank Hr); [exact (l_net _ _ _ _ _ _ _ _ L)|done].
Qed.
Print Assumptions C64_settles_partial.

(** ** Example: pods, a view of them, and a native object for each object of the view *)
Definition copy_gvk : gvk := GVK "example.com" "v1" "Copy".
Definition life_cs : list (config (FF := sci_fmt)) := [Config _ tgt_gvk [pod_gvk] None ex_ps; Config _ copy_gvk [tgt_gvk] None [OProject ev_view]].
Definition life (c0 : cluster) (l : list lact) : option (site clean) := pp ← mapM ex_pipe life_cs; l_run clean ex_sort ex_hash yes yes ex_list ex_orders pp (Site clean (net0 clean pp) c0) l.
Definition life_copies (c : cluster) : list (string * option json) := map (fun m => (get_name m, mget m "phase")) (map snd (map_to_list (cl_live c))).
(** The first life: there are two pods, and the process dies after it has written the
    object for one of them. *)
Definition life1 : list lact := LDo <$>
  [NPut (pod "a" "on"); NPut (pod "b" "on"); NStart 0; NStart 1; NWork 0 pod_gvk; NWrite 0; NWork 1 tgt_gvk; NWrite 1; NWork 0 pod_gvk; NWrite 0; NWork 1 tgt_gvk].
Definition after1 : cluster := match life nothing life1 with Some w => at_cluster clean w | None => nothing end.
(** The second: while it was down the pod whose object was written has changed. *)
Definition life2 : list lact := life1 ++ [LCrash after1] ++ (LDo <$> [NPut (pod "b" "busy"); NStart 1; NStart 0; NWork 0 pod_gvk; NWrite 0; NWork 0 pod_gvk; NWrite 0]).
Definition life3 : list lact := life2 ++ (LDo <$> [NWork 1 tgt_gvk; NWrite 1; NWork 1 tgt_gvk; NWrite 1]).
Lemma life_setting : exists pp, mapM ex_pipe life_cs = Some pp /\ setting ex_hash ex_list ex_orders life_cs pp /\ apart_all life_cs.
Proof.
  destruct ex_ps_ok as (A1 & _). destruct ev_view_ok as (B1 & _).
  assert (exists p1, ex_pipe (Config _ tgt_gvk [pod_gvk] None ex_ps) = Some p1) as [p1 E1] by (apply ex_pipe_made; vm_compute; reflexivity).
  assert (exists p2, ex_pipe (Config _ copy_gvk [tgt_gvk] None [OProject ev_view]) = Some p2) as [p2 E2] by (apply ex_pipe_made; vm_compute; reflexivity).
  assert (Ap : apart_all life_cs). { intros [|[|j]] [|[|k]] c c'; try done; intros [= <-] [= <-]; intros Et; try done; exfalso; revert Et; vm_compute; done. }
  exists [p1; p2]. unfold life_cs. cbn [mapM]. rewrite E1, E2. split; [done|]. split; [|exact Ap].
  split_and!; [intros; exact std_order_ok|intros x; reflexivity|intros t; split; [discriminate|reflexivity]| |intros j k c c' H1 H2 _; exact (Ap j k c c' H1 H2)].
  constructor; [|constructor; [|constructor]]; (split_and!; [vm_compute; reflexivity|done|apply NoDup_singleton|reflexivity| |done|done|]).
  - exact A1.
  - intros _. split; [exact own_tgt|]. vm_compute. reflexivity.
  - by constructor.
  - intros E. exfalso. revert E. vm_compute. discriminate.
Qed.
Lemma life_simple : Forall simple life_cs /\ Forall never_fails life_cs /\ acyclic life_cs.
Proof.
  destruct ex_ps_ok as (A1 & A2 & A3 & A4). destruct ev_view_ok as (B1 & B2 & B3). split_and!.
  - apply Forall_cons. split; [by split_and!; [eexists| |exact A3]|]. apply Forall_cons. split; [|by apply Forall_nil]. split_and!; [by eexists|done|]. apply Forall_cons. split; [exact B3|by apply Forall_nil].
  - apply Forall_cons. split; [by split; [exact A2|]|]. apply Forall_cons. split; [|by apply Forall_nil]. split; [|done]. apply Forall_cons. split; [exact B2|by apply Forall_nil].
  - exists (fun k => k). intros [|[|j]] [|[|k]] c c'; try done; intros [= <-] [= <-] _ Hin; try lia; exfalso; apply elem_of_list_singleton in Hin; revert Hin; vm_compute; done.
Qed.
Lemma nothing_fit : cluster_fit ex_hash nothing.
Proof.
  split; [|done]. split_and!; [done| |intros k m E; cbn [cl_live nothing] in E; by rewrite lookup_empty in E]. exists ex_list, []. split_and!; [intros s; done|constructor|done].
Qed.
Lemma life_unique : Forall (unique_names ex_sort) life_cs.
Proof.
  destruct life_setting as (pp & _ & (_ & _ & _ & Hcs & _) & _). destruct life_simple as (Hs & _). rewrite Forall_forall in *. intros c Hin. assert (Hin' := Hin). apply elem_of_list_lookup in Hin' as [k Hk].
  destruct (Forall2_lookup_l _ _ _ _ _ Hcs Hk) as (p & _ & Cf). eapply simple_unique; eauto. exact (exact_clean sci_ok sci_inj).
Qed.
Lemma life1_fit : Forall (lact_fit ex_hash) life1.
Proof. unfold life1. cbn [fmap list_fmap]. repeat (constructor; [cbn [lact_fit]; try exact I; apply ex_put; first [vm_compute; reflexivity|vm_compute; by eexists|by split; vm_compute]|]). constructor. Qed.
(** What a run leaves is fit for another start. *)
Lemma life_fit l w : Forall (lact_fit ex_hash) l -> life nothing l = Some w -> cluster_fit ex_hash (at_cluster clean w).
Proof.
  intros F E. destruct life_setting as (pp & Epp & (Ho & Hl & Hh & Hcs & _) & Ap). unfold life in E. rewrite Epp in E. cbn [mbind option_bind] in E.
  refine (l_fit _ _ _ _ _ _ _ _ (lives_unique ex_sort ex_hash yes yes ex_list ex_orders life_cs pp (exact_clean sci_ok sci_inj) Ho Hl Hh Hcs Ap life_unique nothing l w nothing_fit F E)).
Qed.
Lemma after1_fit : cluster_fit ex_hash after1.
Proof. unfold after1. destruct (life nothing life1) as [w|] eqn:E; [|exact nothing_fit]. exact (life_fit life1 w life1_fit E). Qed.
Lemma life3_fit : Forall (lact_fit ex_hash) life3.
Proof.
  unfold life3, life2. rewrite !Forall_app. split_and!; [exact life1_fit|constructor; [exact after1_fit|constructor]|..]; cbn [fmap list_fmap];
    repeat (constructor; [cbn [lact_fit]; first [exact I|apply ex_put; first [vm_compute; reflexivity|vm_compute; by eexists|by split; vm_compute]]|]); constructor.
Qed.
Example ex_C64 : (exists pp, mapM ex_pipe life_cs = Some pp /\ setting ex_hash ex_list ex_orders life_cs pp /\ apart_all life_cs)
  /\ cluster_fit ex_hash nothing /\ Forall (lact_fit ex_hash) life3 /\ Forall (unique_names ex_sort) life_cs /\ Forall never_fails life_cs /\ acyclic life_cs
  /\ (fun w => (calm (at_net clean w), life_copies (at_cluster clean w))) <$> life nothing life1 = Some (false, [("b"%string, Some (JStr "on"))])
  /\ (fun w => (forallb (fun n => n_on clean n) (t_nodes clean (at_net clean w)), calm (at_net clean w), life_copies (at_cluster clean w))) <$> life nothing life2 = Some (true, false, [("b"%string, Some (JStr "on"))])
  /\ (fun w => (calm (at_net clean w), life_copies (at_cluster clean w))) <$> life nothing life3 = Some (true, [("b"%string, Some (JStr "busy")); ("a"%string, Some (JStr "on"))]).
Proof.
  split; [exact life_setting|]. split; [exact nothing_fit|]. split; [exact life3_fit|]. split; [exact life_unique|]. destruct life_simple as (_ & H1 & H2). split; [exact H1|]. split; [exact H2|].
  split_and!; vm_compute; reflexivity.
Qed.

(** The process dies, and while it is down the pod is deleted whose object was written.
    After the restart nothing waits, the view is empty, but the object is still there; and
    a Sync of the pipeline, which is meant to bring the target in line with the sources,
    has nothing to do, because it compares the result with what this process has emitted
    and not with what is in the cluster (pipeline.go:247-332). *)
Definition orphan_acts : list lact := life1 ++ [LCrash after1] ++ (LDo <$> [NDrop pod_gvk "default" "a"; NDrop pod_gvk "default" "b"; NStart 0; NStart 1]).
Theorem C64_orphans_refuted : Forall (lact_fit ex_hash) orphan_acts
  /\ (fun w => (calm (at_net clean w), ex_shown (at_net clean w) pod_gvk, ex_shown (at_net clean w) tgt_gvk, life_copies (at_cluster clean w),
       map (fun n => (sync clean ex_sort std_order (n_pipe clean n)).2) (t_nodes clean (at_net clean w)))) <$> life nothing orphan_acts
    = Some (true, [], [], [("b"%string, Some (JStr "on"))], [Some []; Some []]).
Proof.
  split; [|vm_compute; reflexivity]. unfold orphan_acts. rewrite !Forall_app. split_and!; [exact life1_fit|constructor; [exact after1_fit|constructor]|].
  cbn [fmap list_fmap]. repeat (constructor; [cbn [lact_fit]; first [exact I|by split; vm_compute]|]). constructor.
Qed.
Print Assumptions C64_orphans_refuted.
