(** Properties C61 to C63: controllers that work together through views. *)
From Verif Require Import NetModel ZSetSpec OpsSpec GatherSpec ExecSpec JsonSpec CleanSpec PipelineSpec GroupSpec ValueSpec ViewSpec WriterSpec NetSpec.
From Verif Require Import ZSetProofs2 JsonProofs ObjProofs ConvertProofs PipeProofs PipeProofs2 PipeProofs3 ViewProofs NetProofs2 NetProofs3 NetProofs4 NetProofs5 NetProofs6 NetProofs7 NetProofs8 SyncProofs ExecMisc GatherDet TestPipe PropsPipeline.

(** ** C61 *)

(** Controllers run, objects change, and at some time nothing waits any more.  Then the
    operations that each controller has written amount to the result of its pipeline for
    the current source objects, some of which other controllers have made; and if the
    target is a view, then the view has an object for each of them and no others.  It
    does not matter in which order the steps were taken, when the controllers were
    started, and whether controllers depend on each other in a circle.
    Missing: failures, several workers, predicates, targets of type Patcher, sources that
    are not watched; see NetModel. *)
Theorem C61_settled_partial {FF : FloatFmt} : forall sortv hash lister o cs ps l s, fmt_ok -> fmt_inj -> setting hash lister o cs ps -> Forall act_fit l ->
  net_run clean sortv hash lister o (net0 clean ps) l = Some s -> quiet s -> tidy sortv cs s ->
  forall k c n, cs !! k = Some c -> t_nodes clean s !! k = Some n ->
  exists w B, now s (c_sources c) w /\ query sortv c w B /\ shows clean (c_target c) B (apply_ops no_objects (n_written clean n))
    /\ (is_view_kind (c_target c) = true -> forall i, plain i ->
        match apply_ops no_objects (n_written clean n) i with
        | None => held_plain (objects_of clean s (c_target c)) i = None
        | Some m => exists m', held_plain (objects_of clean s (c_target c)) i = Some m' /\ reflects (c_target c) m m'
        end).
Proof.
  intros sortv hash lister o cs ps l s Hf Hi (Ho & Hl & Hh & Hcs & Hap) Fl R Q T k c n Hc Hn. assert (Hex := exact_clean Hf Hi).
  assert (I := inv_run sortv hash lister o cs ps Hex Ho Hl Hh Hcs Hap l _ s Fl (inv_start sortv hash o cs ps Hcs) R T).
  destruct (settled sortv hash o cs ps Hex Ho Hh Hcs s I T Q k c n Hc Hn) as (B & W & X & S & _). exists (after (n_done clean n)), B. split_and!; [done..|].
  intros V i Pi. rewrite (settled_view sortv hash o cs ps Ho Hcs s I k c n) by done.
  assert (Tr := i_target _ _ _ _ _ s I k n c Hn Hc V i Pi). destruct (apply_ops _ _ _) as [m|]; [|done]. destruct Tr as (m' & H1 & H2 & _). by exists m'.
Qed.
Print Assumptions C61_settled_partial.

(** If the metadata of what the controller writes are only names, then the view is exactly
    the result of the pipeline. *)
Theorem C61_exact_partial {FF : FloatFmt} : forall sortv hash lister o cs ps l s, fmt_ok -> fmt_inj -> setting hash lister o cs ps -> Forall act_fit l ->
  net_run clean sortv hash lister o (net0 clean ps) l = Some s -> quiet s -> tidy sortv cs s ->
  forall k c n, cs !! k = Some c -> t_nodes clean s !! k = Some n -> is_view_kind (c_target c) = true -> bare_written n ->
  exists w B, now s (c_sources c) w /\ query sortv c w B /\ shows clean (c_target c) B (content s (c_target c)).
Proof.
  intros sortv hash lister o cs ps l s Hf Hi (Ho & Hl & Hh & Hcs & Hap) Fl R Q T k c n Hc Hn V Bn. assert (Hex := exact_clean Hf Hi).
  assert (I := inv_run sortv hash lister o cs ps Hex Ho Hl Hh Hcs Hap l _ s Fl (inv_start sortv hash o cs ps Hcs) R T).
  destruct (settled sortv hash o cs ps Hex Ho Hh Hcs s I T Q k c n Hc Hn) as (B & W & X & S & _). exists (after (n_done clean n)), B. split_and!; [done..|].
  intros i m. unfold content. rewrite (settled_exact sortv hash o cs ps Hex Ho Hh Hcs s I T Q k c n) by done. apply S.
Qed.
Print Assumptions C61_exact_partial.

(** Controllers whose pipelines have one source, no join and stages that keep names never
    have two documents of one name. *)
Theorem C61_tidy {FF : FloatFmt} : forall sortv hash lister o cs ps l s, fmt_ok -> fmt_inj -> setting hash lister o cs ps -> Forall act_fit l ->
  net_run clean sortv hash lister o (net0 clean ps) l = Some s ->
  (Forall simple cs -> Forall (unique_names sortv) cs) /\ (Forall (unique_names sortv) cs -> tidy sortv cs s).
Proof.
  intros sortv hash lister o cs ps l s Hf Hi (Ho & Hl & Hh & Hcs & Hap) Fl R. assert (Hex := exact_clean Hf Hi). split.
  - intros Hs. rewrite Forall_forall in *. intros c Hin. assert (Hin' := Hin). apply elem_of_list_lookup in Hin' as [k Hk]. destruct (Forall2_lookup_l _ _ _ _ _ Hcs Hk) as (p & _ & Cf). by eapply simple_unique; eauto.
  - intros Hu. apply (inv_tidy sortv hash o cs ps Hu). eapply (inv_reach sortv hash lister o cs ps Hex Ho Hl Hh Hcs Hap Hu); [done| |done]. by apply inv_start.
Qed.
Print Assumptions C61_tidy.

(** ** C62 *)

(** If no stage fails and no controller depends on itself, then after any history the
    controllers come to rest by themselves, in whatever order they take their steps. *)
Theorem C62_settles_partial {FF : FloatFmt} : forall sortv hash lister o cs ps l s, fmt_ok -> fmt_inj -> setting hash lister o cs ps -> Forall act_fit l ->
  net_run clean sortv hash lister o (net0 clean ps) l = Some s -> Forall (unique_names sortv) cs -> Forall never_fails cs -> acyclic cs ->
  running s -> settles (net_step clean sortv hash lister o) s.
Proof.
  intros sortv hash lister o cs ps l s Hf Hi (Ho & Hl & Hh & Hcs & Hap) Fl R Hu Ht [rank Hr] Ru. assert (Hex := exact_clean Hf Hi).
  apply (all_settle sortv hash lister o cs ps Hex Ho Hl Hh Hcs Hap Hu Ht rank Hr); [|done]. eapply (inv_reach sortv hash lister o cs ps Hex Ho Hl Hh Hcs Hap Hu); [done| |done]. by apply inv_start.
Qed.
Print Assumptions C62_settles_partial.

(** ** C63 *)

(** Two networks of the same controllers that have come to rest, over the same objects of
    others, show the same: neither the histories of the objects nor the order of the steps
    nor the time at which the controllers were started matter. *)
Theorem C63_unique_partial {FF : FloatFmt} : forall sortv hash lister1 lister2 o1 o2 cs ps l1 l2 s1 s2, fmt_ok -> fmt_inj ->
  setting hash lister1 o1 cs ps -> setting hash lister2 o2 cs ps -> Forall act_fit l1 -> Forall act_fit l2 ->
  net_run clean sortv hash lister1 o1 (net0 clean ps) l1 = Some s1 -> net_run clean sortv hash lister2 o2 (net0 clean ps) l2 = Some s2 ->
  quiet s1 -> quiet s2 -> tidy sortv cs s1 -> tidy sortv cs s2 -> acyclic cs -> Forall (fun c => Forall (op_posdet (DD := json_docs_on clean) sortv) (c_stages c)) cs ->
  (forall n, n ∈ t_nodes clean s1 \/ n ∈ t_nodes clean s2 -> bare_written n) ->
  (forall x i, made clean s1 x = false -> content s1 x i = content s2 x i) ->
  (forall x i, content s1 x i = content s2 x i)
  /\ forall k n1 n2 i, t_nodes clean s1 !! k = Some n1 -> t_nodes clean s2 !! k = Some n2 -> apply_ops no_objects (n_written clean n1) i = apply_ops no_objects (n_written clean n2) i.
Proof.
  intros sortv hash lister1 lister2 o1 o2 cs ps l1 l2 s1 s2 Hf Hi (Ho1 & Hl1 & Hh & Hcs & Hap) (Ho2 & Hl2 & _) F1 F2 R1 R2 Q1 Q2 T1 T2 Ac Hd Bw Out. assert (Hex := exact_clean Hf Hi).
  assert (I1 := inv_run sortv hash lister1 o1 cs ps Hex Ho1 Hl1 Hh Hcs Hap l1 _ s1 F1 (inv_start sortv hash o1 cs ps Hcs) R1 T1).
  assert (I2 := inv_run sortv hash lister2 o2 cs ps Hex Ho2 Hl2 Hh Hcs Hap l2 _ s2 F2 (inv_start sortv hash o2 cs ps Hcs) R2 T2).
  exact (same_views sortv hash o1 o2 cs ps Hex Ho1 Ho2 Hh Hcs Hd s1 s2 I1 I2 T1 T2 Q1 Q2 Ac Bw Out).
Qed.
Print Assumptions C63_unique_partial.

(** ** Example: pods, a view of them and a view of the view *)
Definition second_gvk : gvk := view_gvk "op" "Names".
Definition ex_hash (t : string) : string := "u".
Definition ex_list (s : store) : list jobj := map snd (map_to_list s).
Definition ex_cs : list (config (FF := sci_fmt)) := [Config _ tgt_gvk [pod_gvk] None ex_ps; Config _ second_gvk [tgt_gvk] None [OProject ev_meta]].
Definition ex_pipe (c : config (FF := sci_fmt)) : option (pipe clean) := pipe_new clean (c_target c) (c_sources c) (c_join c) (c_stages c).
Definition ex_orders (k : nat) : order := std_order.
Definition ex_net (l : list nact) : option (net clean) := pp ← mapM ex_pipe ex_cs; net_run clean ex_sort ex_hash ex_list ex_orders (net0 clean pp) l.
(** The second controller starts before the first, and a pod is there before it. *)
Definition ex_acts : list nact :=
  [NPut (pod "a" "on"); NStart 1; NStart 0; NWork 0 pod_gvk; NPut (pod "b" "busy"); NWrite 0; NWork 0 pod_gvk; NWork 1 tgt_gvk; NPut (pod "a" "off");
   NWrite 0; NWrite 1; NWork 0 pod_gvk; NWrite 0; NWork 1 tgt_gvk; NWrite 1; NWork 1 tgt_gvk; NWrite 1].
Definition calm (s : net clean) : bool := forallb (fun n => n_on clean n && match n_pending clean n with [] => true | _ => false end
  && forallb (fun x => match n_queue clean n x with [] => true | _ => false end) (p_sources clean (n_pipe clean n))) (t_nodes clean s).
Definition ex_shown (s : net clean) (x : gvk) : list (string * option json) := map (fun m => (get_name m, mget m "phase")) (ex_list (objects_of clean s x)).
Lemma own_tgt : own_kind tgt_gvk.
Proof. exists "op"%string, "PodView"%string. split; [by repeat split|]. reflexivity. Qed.
Lemma own_second : own_kind second_gvk.
Proof. exists "op"%string, "Names"%string. split; [by repeat split|]. reflexivity. Qed.
Lemma ex_pipe_made c : match ex_pipe c with Some _ => true | None => false end = true -> exists p, ex_pipe c = Some p.
Proof. destruct (ex_pipe c); [eauto|done]. Qed.
Lemma ex_configs : exists pp, mapM ex_pipe ex_cs = Some pp /\ Forall2 config_ok ex_cs pp.
Proof.
  destruct ex_ps_ok as (A1 & _). destruct ev_meta_ok as (B1 & _).
  assert (exists p1, ex_pipe (Config _ tgt_gvk [pod_gvk] None ex_ps) = Some p1) as [p1 E1] by (apply ex_pipe_made; vm_compute; reflexivity).
  assert (exists p2, ex_pipe (Config _ second_gvk [tgt_gvk] None [OProject ev_meta]) = Some p2) as [p2 E2] by (apply ex_pipe_made; vm_compute; reflexivity).
  exists [p1; p2]. unfold ex_cs. cbn [mapM]. rewrite E1, E2. split; [done|]. constructor; [|constructor; [|constructor]]; (split_and!; [vm_compute; reflexivity|done|apply NoDup_singleton|reflexivity| |done|done|]).
  - exact A1.
  - intros _. split; [exact own_tgt|]. vm_compute. reflexivity.
  - by constructor.
  - intros _. split; [exact own_second|]. vm_compute. reflexivity.
Qed.
Lemma ex_setting : exists pp, mapM ex_pipe ex_cs = Some pp /\ setting ex_hash ex_list ex_orders ex_cs pp.
Proof.
  destruct ex_configs as (pp & E & H). exists pp. split; [done|]. split_and!; [intros; exact std_order_ok|intros x; reflexivity|intros t; split; [discriminate|reflexivity]|done|].
  intros [|[|j]] [|[|k]] c c'; try done; intros [= <-] [= <-] _; intros Et; try done; exfalso; revert Et; vm_compute; done.
Qed.
Lemma ex_put n ph : utf8_ok n = true -> utf8_ok ph = true -> clean (pod n ph) = true -> plain (obj_id (pod n ph)) -> is_Some (doc_id (stripped (pod n ph))) -> clean (stripped (pod n ph)) = true -> act_fit (NPut (pod n ph)).
Proof. intros. split_and!; try done. by apply owf_pod. Qed.
Lemma ex_fit : Forall act_fit ex_acts.
Proof. repeat (constructor; [try exact I; apply ex_put; first [vm_compute; reflexivity|vm_compute; by eexists|by split; vm_compute]|]). constructor. Qed.
Lemma ex_simple : Forall simple ex_cs /\ Forall never_fails ex_cs /\ acyclic ex_cs /\ Forall (fun c => Forall (op_posdet (DD := json_docs_on clean) ex_sort) (c_stages c)) ex_cs.
Proof.
  destruct ex_ps_ok as (A1 & A2 & A3 & A4). destruct ev_meta_ok as (B1 & B2 & B3). split_and!.
  - apply Forall_cons. split; [by split_and!; [eexists| |exact A3]|]. apply Forall_cons. split; [|by apply Forall_nil]. split_and!; [by eexists|done|]. apply Forall_cons. split; [exact B3|by apply Forall_nil].
  - apply Forall_cons. split; [by split; [exact A2|]|]. apply Forall_cons. split; [|by apply Forall_nil]. split; [|done]. apply Forall_cons. split; [exact B2|by apply Forall_nil].
  - exists (fun k => k). intros [|[|j]] [|[|k]] c c'; try done; intros [= <-] [= <-] _ Hin; try lia; exfalso; apply elem_of_list_singleton in Hin; revert Hin; vm_compute; done.
  - constructor; [exact A4|]. constructor; [|constructor]. eapply Forall_impl; [refine (basic_det ex_sort [OProject ev_meta] eq_refl _); by constructor|]. intros p. apply op_det_posdet.
Qed.
(** What the hypotheses ask of a state, as far as it can be computed. *)
Definition bare_b (m : jobj) : bool := match mget m "metadata" with
  | Some (JMap d) => forallb (fun kv => bool_decide (kv.1 = "name"%string) || bool_decide (kv.1 = "namespace"%string)) d
  | _ => true
  end.
Lemma bare_b_ok m : bare_b m = true -> bare m.
Proof.
  unfold bare_b, bare, meta. intros H f N1 N2. cbn [nested_get]. destruct (mget m "metadata") as [[| | | | | |d]|] eqn:E; try done. rewrite forallb_forall in H.
  destruct (mget d f) as [v|] eqn:F; [|done]. exfalso. apply mget_in in F. apply elem_of_list_In in F. specialize (H _ F). cbn [fst] in H. apply orb_true_iff in H as [H|H]; by apply bool_decide_eq_true in H.
Qed.
Definition all_bare (s : net clean) : bool := forallb (fun n => forallb (fun d => bare_b (d_obj d)) (n_written clean n)) (t_nodes clean s).
Lemma all_bare_ok s : all_bare s = true -> forall n, n ∈ t_nodes clean s -> bare_written n.
Proof.
  unfold all_bare. intros H n Hn. rewrite forallb_forall in H. apply elem_of_list_In in Hn. specialize (H _ Hn). cbv beta in H. rewrite forallb_forall in H.
  apply Forall_forall. intros d Hd. apply elem_of_list_In in Hd. by apply bare_b_ok, H.
Qed.
Lemma ex_rest l v : Forall act_fit l -> (fun s => (calm s, all_bare s, ex_shown s pod_gvk, ex_shown s tgt_gvk, ex_shown s second_gvk)) <$> ex_net l = Some (true, true, v.1.1, v.1.2, v.2) ->
  exists s, ex_net l = Some s /\ quiet s /\ tidy ex_sort ex_cs s /\ (forall n, n ∈ t_nodes clean s -> bare_written n)
    /\ ex_shown s pod_gvk = v.1.1 /\ ex_shown s tgt_gvk = v.1.2 /\ ex_shown s second_gvk = v.2.
Proof.
  intros Fl (s & R & E)%fmap_Some. exists s. split; [done|]. destruct ex_setting as (pp & Epp & St). assert (R' := R). unfold ex_net in R'. rewrite Epp in R'. cbn [mbind option_bind] in R'.
  assert (Hf := sci_ok). assert (Hi := sci_inj). destruct (C61_tidy ex_sort ex_hash ex_list ex_orders ex_cs pp l s Hf Hi St Fl R') as [U T].
  destruct ex_simple as (Si & _). specialize (T (U Si)). destruct St as (Ho & Hl & Hh & Hcs & Hap).
  assert (I := inv_run ex_sort ex_hash ex_list ex_orders ex_cs pp (exact_clean Hf Hi) Ho Hl Hh Hcs Hap l _ s Fl (inv_start ex_sort ex_hash ex_orders ex_cs pp Hcs) R' T).
  apply (f_equal id) in E. unfold id in E. assert (E1 := f_equal (fun v => v.1.1.1.1) E). assert (E2 := f_equal (fun v => v.1.1.1.2) E). assert (E3 := f_equal (fun v => v.1.1.2) E). assert (E4 := f_equal (fun v => v.1.2) E). assert (E5 := f_equal snd E). cbn [fst snd] in E1, E2, E3, E4, E5.
  split_and!; [|exact T|apply all_bare_ok; done|done..].
  intros n Hn. assert (Hn' := Hn). apply elem_of_list_lookup in Hn' as [k Hk]. destruct (i_node _ _ _ _ _ s I k n Hk) as (c & p0 & Hc & Hp & Ok).
  unfold calm in E1. symmetry in E1. rewrite forallb_forall in E1. apply elem_of_list_In in Hn. specialize (E1 _ Hn). cbv beta in E1. rewrite !andb_true_iff, forallb_forall in E1. destruct E1 as ((On & Pe) & Qu).
  split; [done|]. split; [by destruct (n_pending clean n)|]. intros x. destruct (decide (x ∈ c_sources c)) as [Hx|Hx]; [|by apply (no_other _ _ _ _ _ _ Ok)].
  assert (Es : p_sources clean (n_pipe clean n) = c_sources c).
  { by eapply (node_kinds ex_sort (ex_orders k) c p0 (Ho k) (conf ex_cs pp Hcs k c p0 Hc Hp)). }
  rewrite Es in Qu. apply elem_of_list_In in Hx. specialize (Qu _ Hx). by destruct (n_queue clean n x).
Qed.
Example ex_C61 : (exists pp, mapM ex_pipe ex_cs = Some pp /\ setting ex_hash ex_list ex_orders ex_cs pp) /\ Forall act_fit ex_acts
  /\ exists s, ex_net ex_acts = Some s /\ quiet s /\ tidy ex_sort ex_cs s /\ (forall n, n ∈ t_nodes clean s -> bare_written n)
    /\ ex_shown s pod_gvk = [("b"%string, Some (JStr "busy")); ("a"%string, Some (JStr "off"))]
    /\ ex_shown s tgt_gvk = [("b"%string, Some (JStr "busy"))] /\ ex_shown s second_gvk = [("b"%string, None)].
Proof.
  split; [exact ex_setting|]. split; [exact ex_fit|].
  apply (ex_rest ex_acts ([("b"%string, Some (JStr "busy")); ("a"%string, Some (JStr "off"))], [("b"%string, Some (JStr "busy"))], [("b"%string, None)]) ex_fit). vm_compute. reflexivity.
Qed.
(** C62: the two controllers, after the first steps, are in the middle of their work. *)
Example ex_C62 : (Forall simple ex_cs /\ Forall never_fails ex_cs /\ acyclic ex_cs /\ Forall (fun c => Forall (op_posdet (DD := json_docs_on clean) ex_sort) (c_stages c)) ex_cs)
  /\ exists s, ex_net (take 6 ex_acts) = Some s /\ running s /\ calm s = false.
Proof.
  split; [exact ex_simple|].
  assert ((fun s => (forallb (fun n => n_on clean n) (t_nodes clean s), calm s)) <$> ex_net (take 6 ex_acts) = Some (true, false)) as (s & R & E)%fmap_Some by (vm_compute; reflexivity).
  exists s. split; [done|]. assert (E1 := f_equal fst E). assert (E2 := f_equal snd E). cbn [fst snd] in E1, E2. split; [|done].
  intros n Hn. symmetry in E1. rewrite forallb_forall in E1. apply elem_of_list_In in Hn. exact (E1 n Hn).
Qed.
(** C63: another history of the same pods, with the controllers started at other times. *)
Definition ex_acts2 : list nact :=
  [NStart 0; NPut (pod "b" "on"); NPut (pod "a" "off"); NPut (pod "c" "on"); NPut (pod "b" "busy"); NWork 0 pod_gvk; NWrite 0; NWork 0 pod_gvk; NWork 0 pod_gvk; NWrite 0;
   NWork 0 pod_gvk; NDrop pod_gvk "default" "c"; NWrite 0; NStart 1; NWork 1 tgt_gvk; NWrite 1; NWork 0 pod_gvk; NWrite 0; NWork 1 tgt_gvk; NWrite 1; NWork 1 tgt_gvk; NWrite 1].
Example ex_C63 : exists s, ex_net ex_acts2 = Some s /\ quiet s /\ tidy ex_sort ex_cs s /\ (forall n, n ∈ t_nodes clean s -> bare_written n)
    /\ ex_shown s pod_gvk = [("b"%string, Some (JStr "busy")); ("a"%string, Some (JStr "off"))]
    /\ ex_shown s tgt_gvk = [("b"%string, Some (JStr "busy"))] /\ ex_shown s second_gvk = [("b"%string, None)].
Proof.
  apply (ex_rest ex_acts2 ([("b"%string, Some (JStr "busy")); ("a"%string, Some (JStr "off"))], [("b"%string, Some (JStr "busy"))], [("b"%string, None)])); [|vm_compute; reflexivity].
  unfold ex_acts2. repeat (constructor; [first [exact I|by split; vm_compute|apply ex_put; first [vm_compute; reflexivity|vm_compute; by eexists|by split; vm_compute]]|]). constructor.
Qed.

(** Without the condition on the metadata the histories do matter.  A pod loses a label;
    the view, which copies the metadata of the pods, keeps it, because the writer adds the
    new labels to those that are there.  A network that never saw the label does not have
    it, and the difference goes on to the second view. *)
Definition lpod (name : string) (labels : list (string * string)) : jobj :=
  [("apiVersion"%string, JStr "v1"); ("kind"%string, JStr "Pod");
   ("metadata"%string, JMap [("labels"%string, JMap (map (fun kv => (kv.1, JStr kv.2)) labels)); ("name"%string, JStr name); ("namespace"%string, JStr "default")]); ("phase"%string, JStr "on")].
Definition ex_labels (s : net clean) (x : gvk) : list (string * option (list (string * string))) := map (fun m => (get_name m, string_map (meta m "labels"))) (ex_list (objects_of clean s x)).
Definition settle_all : list nact := [NWork 0 pod_gvk; NWrite 0; NWork 1 tgt_gvk; NWrite 1].
Theorem C63_labels_refuted :
  let old := [("app", "web"); ("tier", "front")]%string in let new := [("app"%string, "db"%string)] in
  act_fit (NPut (lpod "a" old)) /\ act_fit (NPut (lpod "a" new)) /\
  let seen l := (fun s => (calm s, ex_labels s pod_gvk, ex_labels s tgt_gvk, ex_labels s second_gvk)) <$> ex_net l in
  seen ([NStart 0; NStart 1; NPut (lpod "a" old)] ++ settle_all ++ [NPut (lpod "a" new)] ++ settle_all)
    = Some (true, [("a"%string, Some new)], [("a"%string, Some [("app", "db"); ("tier", "front")]%string)], [("a"%string, Some [("app", "db"); ("tier", "front")]%string)])
  /\ seen ([NStart 0; NStart 1; NPut (lpod "a" new)] ++ settle_all)
    = Some (true, [("a"%string, Some new)], [("a"%string, Some new)], [("a"%string, Some new)]).
Proof.
  assert (H : forall m, clean m = true -> clean (stripped m) = true -> plain (obj_id m) -> is_Some (doc_id (stripped m)) -> act_fit (NPut m)).
  { intros m H ???. split; [|done]. destruct (proj2 (keyed_clean _) H) as [k Hk]. by eapply (proj2 exact_sci). }
  cbv zeta. do 2 (split; [apply H; first [vm_compute; reflexivity|vm_compute; by eexists|by split; vm_compute]|]). split; vm_compute; reflexivity.
Qed.
Print Assumptions C63_labels_refuted.
