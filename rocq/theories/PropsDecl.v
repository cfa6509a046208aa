(** Property C65: an operator does what its specification says. *)
From Verif Require Import DeclModel ZSetSpec OpsSpec GatherSpec ExecSpec JsonSpec CleanSpec PipelineSpec GroupSpec ValueSpec ExprSpec StageSpec ViewSpec WriterSpec NetSpec LifeSpec DeclSpec.
From Verif Require Import ZSetProofs2 JsonProofs CleanProofs ObjProofs ConvertProofs PipeProofs PipeProofs2 PipeProofs3 ViewProofs NetProofs2 NetProofs3 NetProofs4 NetProofs5 NetProofs6 NetProofs7 LifeProofs DeclProofs StageProofs StageNames StageClean TestExpr TestPipe TestStage PropsPipeline PropsStage PropsWriter PropsNet PropsLife.
From Verif Require OperatorProofs ExprProofs3.

(** An operator is declared, some of its controllers possibly so that they cannot be made.
    Objects come, change and go, the controllers take their steps in any order, the process
    dies and is started again any number of times.  When nothing waits any more, each
    controller that could be made has for each object that its stages yield for the current
    source objects this object in its target.  A view has nothing else; a native target has
    nothing else but what was there at the last start.
    Missing: see C61 and C64; and the stages must never yield two objects of one name. *)
Theorem C65_operator_partial (FF : FloatFmt) (EE : ExprEnv) : forall sortv hash has_status unconditional lister o mapper op ds c0 l w, fmt_ok -> fmt_inj ->
  surroundings hash lister o -> let bs := build_all clean mapper op ds in own_targets bs -> Forall (sensible sortv) bs -> cluster_fit hash c0 -> Forall (lact_fit hash) l ->
  l_run clean sortv hash has_status unconditional lister o (map b_pipe bs) (Site clean (net0 clean (map b_pipe bs)) c0) l = Some w -> quiet (at_net clean w) ->
  forall c b, c ∈ ds -> build clean mapper op c = Some b ->
  exists v R, now (at_net clean w) (b_sources b) v /\ yields sortv (b_sources b) (dc_stages c) v R
    /\ if is_view_kind (b_target b)
       then forall i, PipelineSpec.plain i ->
         (forall m, asked (b_target b) R i m -> exists m', held_plain (objects_of clean (at_net clean w) (b_target b)) i = Some m' /\ reflects (b_target b) m m')
         /\ ((forall m, ~ asked (b_target b) R i m) -> held_plain (objects_of clean (at_net clean w) (b_target b)) i = None)
       else forall i,
         (forall m, asked (b_target b) R i m -> exists m' old, stored (at_cluster clean w) (b_target b, i) = Some m' /\ WriterSpec.holds has_status (b_target b) m old m')
         /\ ((forall m, ~ asked (b_target b) R i m) -> stored (at_cluster clean w) (b_target b, i) = None \/ stored (at_cluster clean w) (b_target b, i) = stored (last_start c0 l) (b_target b, i)).
Proof.
  intros sortv hash has_status unconditional lister o mapper op ds c0 l w Hf Hi Hsu bs Hap Hse F0 Fl R Q c b Hc Hb. assert (Hex := exact_clean Hf Hi).
  assert (Hw : Forall wired bs) by apply all_wired. destruct (confs sortv Hex bs Hw Hse) as (cs & Hcf & Hok).
  assert (Hin : b ∈ bs) by (apply elem_of_list_omap; eauto). apply elem_of_list_lookup in Hin as [k Hk].
  assert (L := decl_life sortv Hex hash has_status unconditional lister o bs cs Hsu Hw Hse Hcf Hok Hap c0 l w F0 Fl R). assert (I := l_net _ _ _ _ _ _ _ _ L).
  destruct (decl_rest sortv Hex hash has_status unconditional lister o bs cs Hsu Hw Hse Hcf Hok Hap c0 l w k b F0 Fl R Q Hk) as (n & v & Y & Hn & Hnow & Hy & HA).
  assert (Est : b_stages b = dc_stages c).
  { clear - Hb. unfold build in Hb. case_decide; [done|]. destruct (dc_sources c); [done|]. repeat (apply bind_Some in Hb as (? & _ & Hb)). by injection Hb as <-. }
  rewrite Est in Hy. exists v, Y. split_and!; [done..|]. destruct (Forall2_lookup_l _ _ _ _ _ Hcf Hk) as (cf & Hcc & (? & ? & ? & _ & _ & Ecf)). assert (Et : c_target cf = b_target b) by (by rewrite Ecf).
  destruct (is_view_kind (b_target b)) eqn:V.
  - intros i Pi. assert (Tr := i_target _ _ _ _ _ _ I k n cf Hn Hcc). rewrite Et in Tr. specialize (Tr V i Pi). rewrite <- Et in V. assert (Ev := settled_view sortv hash o cs (map b_pipe bs) (proj1 Hsu) Hok _ I k cf n Hcc Hn V). rewrite Et in Ev. rewrite Ev. split.
    + intros m Am. rewrite (proj2 (HA i m) Am) in Tr. destruct Tr as (m' & H1 & H2 & _). by exists m'.
    + intros Na. destruct (apply_ops _ _ _) as [m|] eqn:E; [|done]. destruct (Na m). by apply HA.
  - intros i. rewrite <- Et in V. assert (F := l_done _ _ _ _ _ _ _ _ L k n cf Hn Hcc V i). rewrite Et in F. split.
    + intros m Am. apply HA in Am. rewrite applied_last in Am. destruct (last_for i _) as [d|]; [|done]. case_decide; [done|]. injection Am as <-. exact F.
    + intros Na. destruct (apply_ops no_objects (n_written clean n) i) as [m|] eqn:E; [destruct (Na m); by apply HA|]. rewrite applied_last in E. destruct (last_for i _) as [d|]; [|by right]. case_decide; [by left|done].
Qed.
Print Assumptions C65_operator_partial.

(** And if its stages fail for no document (those that copy strings may: a value that
    starts with $ is taken for a path) and the controllers do not depend on each other
    in a circle, then they come to rest once all of them are started. *)
Theorem C65_settles_partial (FF : FloatFmt) (EE : ExprEnv) : forall sortv hash has_status unconditional lister o mapper op ds c0 l w, fmt_ok -> fmt_inj ->
  surroundings hash lister o -> let bs := build_all clean mapper op ds in own_targets bs -> Forall (sensible sortv) bs -> Forall DeclSpec.safe bs -> no_circle bs -> cluster_fit hash c0 -> Forall (lact_fit hash) l ->
  l_run clean sortv hash has_status unconditional lister o (map b_pipe bs) (Site clean (net0 clean (map b_pipe bs)) c0) l = Some w -> NetSpec.running (at_net clean w) ->
  calms (l_step clean sortv hash has_status unconditional lister o (map b_pipe bs)) w.
Proof.
  intros sortv hash has_status unconditional lister o mapper op ds c0 l w Hf Hi Hsu bs Hap Hse Hsa Hnc F0 Fl R Ru. assert (Hex := exact_clean Hf Hi).
  assert (Hw : Forall wired bs) by apply all_wired. destruct (confs sortv Hex bs Hw Hse) as (cs & Hcf & Hok). destruct Hsu as (Ho & Hl & Hh). assert (Ap := confs_apart bs cs Hcf Hap).
  refine (proj2 (C64_settles_partial sortv hash has_status unconditional lister o cs (map b_pipe bs) c0 l w Hf Hi _ Ap F0 Fl R _ _ _ Ru)).
  - split_and!; [done..|]. intros j k c c' H1 H2 _. exact (Ap j k c c' H1 H2).
  - exact (confs_unique sortv Hex bs cs Hw Hse Hcf).
  - exact (confs_safe sortv Hex bs cs Hse Hsa Hcf).
  - by eapply confs_acyclic.
Qed.
Print Assumptions C65_settles_partial.

(** Views that are named by their Kind alone satisfy what is asked of the targets, for
    operator names without dots and slashes; and a source named like a target is the view
    that the other controller writes. *)
Theorem C65_views (FF : FloatFmt) (EE : ExprEnv) : forall mapper op c b k, no_dot op -> has_slash op = false -> utf8_ok op = true -> utf8_ok k = true ->
  build clean mapper op c = Some b -> dc_target c = Some (RSrc None None k) ->
  gvk_ok (b_target b) /\ is_view_kind (b_target b) = true /\ own_kind (b_target b) /\ clean (set_gvk [] (b_target b)) = true
  /\ forall c' b' j, build clean mapper op c' = Some b' -> dc_sources c' !! j = Some (RSrc None None k) -> b_sources b' !! j = Some (b_target b).
Proof.
  intros mapper op c b k Hd Hs Hu Hk Hb Ht.
  assert (Hg : forall r, s_group r = None -> s_kind r <> EmptyString -> res_gvk mapper op r = Some (view_gvk op (s_kind r))).
  { intros r Hr Hk0. unfold res_gvk. rewrite decide_False by done. rewrite Hr. by rewrite OperatorProofs.view_group_is. }
  assert (Et : k <> EmptyString /\ b_target b = view_gvk op k).
  { unfold build in Hb. case_decide; [done|]. destruct (dc_sources c); [done|]. rewrite Ht in Hb. cbn [mbind option_bind] in Hb. destruct (decide (k = EmptyString)) as [->|Hn]; [done|].
    rewrite Hg in Hb by done. cbn [mbind option_bind] in Hb. repeat (apply bind_Some in Hb as (? & _ & Hb)). by injection Hb as <-. }
  destruct Et as [Hn ->]. assert (Hns : has_slash (view_group op) = false).
  { clear - Hs. unfold view_group. induction op as [|a op IH]; [done|]. change (has_slash (String a (op +:+ "." +:+ group_suffix)) = false). rewrite has_slash_cons in *. apply orb_false_elim in Hs as [-> Hs]. by rewrite IH. }
  split_and!.
  - by apply gv_noslash_parse.
  - unfold is_view_kind. cbn [view_gvk gvk_group gvk_version]. unfold is_view_gv. by rewrite OperatorProofs.view_group_is.
  - by exists op, k.
  - change (utf8_ok (gv_string (view_group op) view_version) && (utf8_ok k && true) = true). rewrite Hk. unfold gv_string.
    case_decide; [done|]. rewrite !andb_true_r. apply utf8_app; [|done]. unfold view_group. by apply utf8_app.
  - intros c' b' j Hb' Hj. unfold build in Hb'. case_decide; [done|]. destruct (dc_sources c') as [|r0 rs]; [done|]. apply bind_Some in Hb' as (t & _ & Hb'). apply bind_Some in Hb' as (x & _ & Hb').
    apply bind_Some in Hb' as (xs & Hxs & Hb'). apply bind_Some in Hb' as (p & _ & Hb'). injection Hb' as <-. cbn [b_sources]. apply mapM_Some in Hxs. destruct (Forall2_lookup_l _ _ _ _ _ Hxs Hj) as (y & Hy & E).
    rewrite Hg in E by done. injection E as <-. exact Hy.
Qed.
Print Assumptions C65_views.

(** An operator with a controller that shows the pods that have a phase in a view, a broken
    one, and one that writes an object for each object of the view.  The process dies, and
    a pod loses its phase while it is down. *)
Definition op_stages : list stage := [Stage KSelect (op1 "@exists" (strE "$.phase")); Stage KProject (strE "$.")].
Definition op_decl : list declared :=
  [Declared "pods" [RSrc (Some ""%string) (Some "v1"%string) "Pod"] op_stages (Some (RSrc None None "PodView"));
   Declared "broken" [] op_stages (Some (RSrc None None "PodView"));
   Declared "copies" [RSrc None None "PodView"] [Stage KProject (strE "$.")] (Some (RSrc (Some "example.com"%string) (Some "v1"%string) "Copy"))].
Definition no_mapper (_ _ : string) : option gvk := None.
Definition op_built : list (built (FF := sci_fmt) clean) := build_all (EE := path_env) clean no_mapper "op" op_decl.
Definition op_life (l : list lact) : option (site clean) := l_run clean ex_sort ex_hash yes yes ex_list ex_orders (map b_pipe op_built) (Site clean (net0 clean (map b_pipe op_built)) nothing) l.
Definition unphased : jobj := mdel (pod "b" "on") "phase".
Definition op_acts1 : list lact := LDo <$> [NStart 0; NStart 1; NPut (pod "a" "on"); NPut (pod "b" "on"); NWork 0 pod_gvk; NWrite 0; NWork 0 pod_gvk; NWrite 0; NWork 1 tgt_gvk; NWrite 1].
Definition op_after : cluster := match op_life op_acts1 with Some w => at_cluster clean w | None => nothing end.
Definition op_acts : list lact := op_acts1 ++ [LCrash op_after] ++ (LDo <$> [NPut unphased; NPut (pod "a" "busy"); NPut (pod "c" "on"); NStart 0; NStart 1; NWork 0 pod_gvk; NWork 0 pod_gvk; NWrite 0; NWork 0 pod_gvk; NWrite 0; NWork 1 tgt_gvk; NWrite 1; NWork 1 tgt_gvk; NWrite 1]).
Lemma op_fields : exists b1 b2, op_built = [b1; b2]
  /\ (b_target b1 = tgt_gvk /\ b_sources b1 = [pod_gvk] /\ b_stages b1 = op_stages)
  /\ (b_target b2 = copy_gvk /\ b_sources b2 = [tgt_gvk] /\ b_stages b2 = [Stage KProject (strE "$.")]).
Proof.
  assert (E : map (fun b => (b_target b, b_sources b, b_stages b)) op_built = [(tgt_gvk, [pod_gvk], op_stages); (copy_gvk, [tgt_gvk], [Stage KProject (strE "$.")])]) by (vm_compute; reflexivity).
  destruct op_built as [|b1 [|b2 [|b3 bs]]]; try discriminate E. cbn [map] in E. injection E as E1 E2 E3 E4 E5 E6. by exists b1, b2.
Qed.
Lemma op_select (d : jobj) : exists b, eval_doc (FF := sci_fmt) (EE := path_env) (op1 "@exists" (strE "$.phase")) d = Some (JBool b).
Proof. cbv -[mget]. destruct (mget d "phase"); by eexists. Qed.
Lemma op_whole (d : jobj) : eval_doc (FF := sci_fmt) (EE := path_env) (strE "$.") d = Some (JMap d).
Proof. reflexivity. Qed.
Lemma op_project (d : jobj) : exists d', projected (FF := sci_fmt) (EE := path_env) (strE "$.") d d'.
Proof. exists d. left. apply op_whole. Qed.
Lemma op_sensible : Forall (sensible (EE := path_env) ex_sort) op_built.
Proof.
  destruct op_fields as (b1 & b2 & -> & (T1 & S1 & P1) & (T2 & S2 & P2)).
  assert (K : stage_keeps_names (Stage KProject (strE "$."))).
  { intros d d' i H [E|(us & E & _)]; rewrite op_whole in E; [|done]. by injection E as <-. }
  assert (N : forall (b : built clean) x, b_sources b = [x] -> Forall stage_keeps_names (b_stages b) -> forall ds R, history_ok clean (b_sources b) ∅ ds -> named_history ds -> yields ex_sort (b_sources b) (b_stages b) (after ds) R -> one_per_name R).
  { intros b x E F ds R H1 H2 H3. rewrite E in *. eapply (C51_names _ _ ex_sort x (b_stages b) ds ds [] R path_names F H1 H2); [by rewrite app_nil_r|exact H3]. }
  apply List.Forall_cons; [|apply List.Forall_cons; [|apply List.Forall_nil]].
  - constructor.
    + rewrite T1. vm_compute. reflexivity.
    + intros _. rewrite T1. split; [exact own_tgt|]. vm_compute. reflexivity.
    + rewrite S1. apply NoDup_singleton.
    + rewrite P1. repeat (apply List.Forall_cons; [apply (C51_tidy _ _ path_clean); vm_compute; reflexivity|]). apply List.Forall_nil.
    + apply (N b1 pod_gvk S1). rewrite P1. apply List.Forall_cons; [exact I|]. apply List.Forall_cons; [exact K|apply List.Forall_nil].
  - constructor.
    + rewrite T2. vm_compute. reflexivity.
    + rewrite T2. intros E. exfalso. revert E. vm_compute. discriminate.
    + rewrite S2. apply NoDup_singleton.
    + rewrite P2. repeat (apply List.Forall_cons; [apply (C51_tidy _ _ path_clean); vm_compute; reflexivity|]). apply List.Forall_nil.
    + apply (N b2 tgt_gvk S2). rewrite P2. apply List.Forall_cons; [exact K|apply List.Forall_nil].
Qed.
Lemma op_safe : own_targets op_built /\ Forall (DeclSpec.safe (EE := path_env)) op_built /\ no_circle op_built.
Proof.
  destruct op_fields as (b1 & b2 & -> & (T1 & S1 & P1) & (T2 & S2 & P2)). split_and!.
  - intros [|[|j]] [|[|k]] b b'; try done; intros [= <-] [= <-]; rewrite T1, T2; intros E; exfalso; revert E; vm_compute; done.
  - apply List.Forall_cons; [|apply List.Forall_cons; [|apply List.Forall_nil]]; unfold DeclSpec.safe; [rewrite P1|rewrite P2].
    + apply List.Forall_cons; [intros d _; exact (op_select d)|]. apply List.Forall_cons; [intros d _; exact (op_project d)|apply List.Forall_nil].
    + apply List.Forall_cons; [intros d _; exact (op_project d)|apply List.Forall_nil].
  - exists (fun k => k). intros [|[|j]] [|[|k]] b b'; try done; intros [= <-] [= <-]; rewrite ?T1, ?T2, ?S1, ?S2; intros _ Hin; try lia; exfalso; apply elem_of_list_singleton in Hin; revert Hin; vm_compute; done.
Qed.
Lemma op_surroundings : surroundings ex_hash ex_list ex_orders.
Proof. split_and!; [intros; exact std_order_ok|intros x; reflexivity|intros t; split; [discriminate|reflexivity]]. Qed.
Lemma unphased_fit : act_fit (NPut unphased).
Proof. split_and!; first [apply owf_ex; vm_compute; reflexivity|vm_compute; reflexivity|vm_compute; by eexists|by split; vm_compute]. Qed.
Ltac op_fit := repeat (constructor; [cbn [lact_fit]; first [exact I|exact unphased_fit|apply ex_put; first [vm_compute; reflexivity|vm_compute; by eexists|by split; vm_compute]]|]); constructor.
Lemma op_fit1 : Forall (lact_fit ex_hash) op_acts1.
Proof. unfold op_acts1. cbn [fmap list_fmap]. op_fit. Qed.
Lemma op_after_fit : cluster_fit ex_hash op_after.
Proof.
  unfold op_after. destruct (op_life op_acts1) as [w|] eqn:E; [|exact nothing_fit]. assert (Hex := exact_clean sci_ok sci_inj).
  assert (Hw : Forall wired op_built) by apply all_wired. destruct (confs ex_sort Hex op_built Hw op_sensible) as (cs & Hcf & Hok).
  exact (l_fit _ _ _ _ _ _ _ _ (decl_life ex_sort Hex ex_hash yes yes ex_list ex_orders op_built cs op_surroundings Hw op_sensible Hcf Hok (proj1 op_safe) nothing op_acts1 w nothing_fit op_fit1 E)).
Qed.
Lemma op_fits : Forall (lact_fit ex_hash) op_acts.
Proof. unfold op_acts. rewrite !Forall_app. split_and!; [exact op_fit1|constructor; [exact op_after_fit|constructor]|]. cbn [fmap list_fmap]. op_fit. Qed.
Example ex_C65 : fmt_ok /\ fmt_inj /\ surroundings ex_hash ex_list ex_orders /\ own_targets op_built /\ Forall (sensible (EE := path_env) ex_sort) op_built /\ Forall (DeclSpec.safe (EE := path_env)) op_built /\ no_circle op_built
  /\ cluster_fit ex_hash nothing /\ Forall (lact_fit ex_hash) op_acts
  /\ map (fun c => match build (EE := path_env) clean no_mapper "op" c with Some b => Some (b_target b, b_sources b) | None => None end) op_decl = [Some (tgt_gvk, [pod_gvk]); None; Some (copy_gvk, [tgt_gvk])]
  /\ (fun w => (calm (at_net clean w), ex_shown (at_net clean w) tgt_gvk, life_copies (at_cluster clean w))) <$> op_life op_acts1
     = Some (false, [("b"%string, Some (JStr "on")); ("a"%string, Some (JStr "on"))], [("a"%string, Some (JStr "on"))])
  /\ (fun w => (calm (at_net clean w), ex_shown (at_net clean w) tgt_gvk, life_copies (at_cluster clean w))) <$> op_life op_acts
     = Some (true, [("a"%string, Some (JStr "busy")); ("c"%string, Some (JStr "on"))], [("a"%string, Some (JStr "busy")); ("c"%string, Some (JStr "on"))]).
Proof.
  split; [exact sci_ok|]. split; [exact sci_inj|]. split; [exact op_surroundings|]. destruct op_safe as (H1 & H2 & H3). split; [exact H1|]. split; [exact op_sensible|]. split; [exact H2|]. split; [exact H3|].
  split; [exact nothing_fit|]. split; [exact op_fits|]. split_and!; vm_compute; reflexivity.
Qed.
Example ex_C65_views : no_dot "op" /\ has_slash "op" = false /\ utf8_ok "op" = true /\ utf8_ok "PodView" = true.
Proof. split_and!; vm_compute; done. Qed.
