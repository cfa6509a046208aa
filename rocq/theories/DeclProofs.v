(** Proofs about declared operators. *)
From Verif Require Import DeclModel ZSetSpec OpsSpec GatherSpec ExecSpec JsonSpec CleanSpec PipelineSpec GroupSpec ValueSpec ExprSpec StageSpec ViewSpec WriterSpec NetSpec LifeSpec DeclSpec.
From Verif Require Import JsonProofs CleanProofs ReconcileProofs ObjProofs ConvertProofs TargetProofs PipeProofs PipeProofs2 PipeProofs4 RetryProofs OptProofs ViewProofs ViewProofs2 ListProofs StageProofs StageClean.
From Verif Require Import NetProofs2 NetProofs3 NetProofs4 NetProofs5 NetProofs6 NetProofs7 LifeProofs.

Section decl.
Context {FF : FloatFmt} {EE : ExprEnv}.
#[local] Hint Extern 0 Docs => exact (json_docs_on clean) : typeclass_instances.
Variable sortv : list json -> list json.
Hypothesis Hex : exact clean.

(** The network's view of a controller *)
Definition conf_of (b : built clean) (c : config) : Prop := exists j rest ops, split_join (b_stages b) = (j, rest) /\ mapM (stage_op clean) rest = Some ops
  /\ c = Config _ (b_target b) (b_sources b) (join_ev clean (map gvk_kind (b_sources b)) <$> j) ops.
Definition wired (b : built clean) : Prop := b_sources b <> [] /\ declare clean (b_target b) (b_sources b) (b_stages b) = Some (b_pipe b).
Lemma build_wired mapper op c b : build clean mapper op c = Some b -> wired b.
Proof.
  unfold build. case_decide; [done|]. destruct (dc_sources c) as [|s ss] eqn:Es; [done|]. intros E.
  apply bind_Some in E as (t & _ & E). apply bind_Some in E as (x & _ & E). apply bind_Some in E as (xs & Hxs & E). apply bind_Some in E as (p & Hp & [= <-]).
  split; [|done]. cbn [b_sources]. intros ->. apply mapM_length in Hxs. done.
Qed.
Lemma rest_clean p j rest : split_join p = (j, rest) -> Forall stage_clean p -> Forall stage_clean rest.
Proof. destruct p as [|[kd e] p]; cbn; intros Ej HC; [by injection Ej as _ <-|]. destruct kd; injection Ej as <- <-; try done. by apply Forall_cons in HC as [_ ?]. Qed.
Lemma ops_fit rest ops : Forall stage_clean rest -> mapM (stage_op clean) rest = Some ops -> forallb user_op ops = true /\ Forall ExecSpec.op_ok ops.
Proof.
  revert ops. induction rest as [|s rest IH]; intros ops HC Ep; cbn in Ep; [injection Ep as <-; done|].
  destruct (stage_op clean s) as [q|] eqn:Es; [|done]. cbn in Ep. destruct (mapM (stage_op clean) rest) as [ops'|] eqn:Er; [|done]. cbn in Ep. injection Ep as <-.
  apply Forall_cons in HC as [Hs HC]. destruct (IH ops' HC eq_refl) as [H1 H2]. destruct (stage_op_ok clean Hex s q (fun _ => eq_refl) Hs Es) as [H3 H4].
  split; [simpl; by rewrite H3|by constructor].
Qed.
Lemma conf_sound b : wired b -> sensible sortv b -> exists c, conf_of b c /\ config_ok c (b_pipe b).
Proof.
  intros [Ne D] [S1 S2 S3 S4 S5]. unfold declare in D. destruct (split_join (b_stages b)) as [j rest] eqn:Ej. destruct (_ && _); [done|].
  destruct (mapM (stage_op clean) rest) as [ops|] eqn:Ep; [|done]. cbn [mbind option_bind] in D. eexists. split; [by exists j, rest, ops|].
  destruct (ops_fit rest ops (rest_clean _ _ _ Ej S4) Ep) as [H1 H2].
  split_and!; cbn [c_target c_sources c_join c_stages]; [done..| |done|done]. intros jev _. by apply any_jev_ok.
Qed.
Lemma query_yields b c ds B : wired b -> sensible sortv b -> conf_of b c -> history_ok clean (b_sources b) ∅ ds -> query sortv c (after ds) B ->
  exists R, rep (DD := json_docs_on clean) B R /\ yields sortv (b_sources b) (b_stages b) (after ds) R.
Proof.
  intros [Ne _] So (j & rest & ops & Ej & Ep & ->) HH (g & acc & Hg & HI & HS). cbn [c_target c_sources c_join c_stages] in *.
  eapply (exec_yields clean sortv Hex); [exact Ej|done|apply So| |exact Ep|exact Hg|exact HI|exact HS].
  intros kd m _ Hm. eapply prefix_keyed; [exact HH|symmetry; apply app_nil_r|exact Hm].
Qed.
Lemma conf_unique b c : wired b -> sensible sortv b -> conf_of b c -> unique_names sortv c.
Proof.
  intros Wi So Cf ds B HH HN Q. assert (Es : c_sources c = b_sources b) by (by destruct Cf as (? & ? & ? & _ & _ & ->)). rewrite Es in HH.
  destruct (query_yields b c ds B Wi So Cf HH Q) as (R & RB & Y). eapply (rep_functional clean Hex); [exact RB|]. by eapply (s_names _ _ So).
Qed.
Lemma shows_asked x B R C : rep (DD := json_docs_on clean) B R -> shows clean x B C -> forall i m, C i = Some m <-> asked x R i m.
Proof.
  intros RB Sh i m. rewrite (Sh i m). split.
  - intros (k & d & Hd & Hi & Hm). exists d. split; [|done]. apply (rep_in (DD := json_docs_on clean) (kinj clean Hex) B R d RB). by exists k.
  - intros (d & Hd & Hi & Hm). apply (rep_in (DD := json_docs_on clean) (kinj clean Hex) B R d RB) in Hd as [k Hk]. by exists k, d.
Qed.

(** All controllers *)
Lemma confs bs : Forall wired bs -> Forall (sensible sortv) bs -> exists cs, Forall2 conf_of bs cs /\ Forall2 config_ok cs (map b_pipe bs).
Proof.
  induction 1 as [|b bs W Ws IH]; intros S; [exists []; split; constructor|]. apply Forall_cons in S as [Sb S]. destruct (IH S) as (cs & H1 & H2). destruct (conf_sound b W Sb) as (c & H3 & H4).
  exists (c :: cs). split; by constructor.
Qed.
Lemma confs_apart bs cs : Forall2 conf_of bs cs -> own_targets bs -> apart_all cs.
Proof.
  intros F A j k c c' Hj Hk E. destruct (Forall2_lookup_r _ _ _ _ _ F Hj) as (b & Hb & (? & ? & ? & _ & _ & ->)). destruct (Forall2_lookup_r _ _ _ _ _ F Hk) as (b' & Hb' & (? & ? & ? & _ & _ & ->)). by eapply (A j k b b').
Qed.
Lemma confs_unique bs cs : Forall wired bs -> Forall (sensible sortv) bs -> Forall2 conf_of bs cs -> Forall (unique_names sortv) cs.
Proof.
  intros W S F. apply Forall_lookup. intros k c Hc. destruct (Forall2_lookup_r _ _ _ _ _ F Hc) as (b & Hb & Cf). eapply conf_unique; [| |exact Cf]; by eapply Forall_lookup_1.
Qed.
Lemma all_wired mapper op ds : Forall wired (build_all clean mapper op ds).
Proof. apply Forall_forall. intros b Hb. apply elem_of_list_omap in Hb as (c & _ & E). by eapply build_wired. Qed.
(** Safe stages *)
Lemma key_clean (d : jobj) : is_Some (@key (json_docs_on clean) d) -> clean d = true.
Proof. intros [k Hk]. simpl in Hk. by destruct (clean d). Qed.
Lemma projected_ev e d d' : projected e d d' -> project_ev clean e d = Some [d'].
Proof.
  unfold project_ev. intros [E|(us & E & M)]; rewrite E; cbn [mbind option_bind]; [done|]. unfold as_objects. cbn [as_object as_list mbind option_bind].
  assert (Eu : collect as_object (map JMap us) = Some us) by (clear; induction us as [|u us IH]; [done|]; cbn [map collect as_object mbind option_bind]; by rewrite IH). rewrite Eu. cbn [mbind option_bind]. by rewrite M.
Qed.
Lemma unwound_ev e d l : unwound e d l -> (exists v, get_raw name_path (JMap d) = Val v) -> is_Some (unwind_ev (DD := json_docs_on clean) (unwind_extract clean e) (unwind_transform clean e) d).
Proof.
  intros (path & vs & Hp & Ev & Len & Hl) [v0 Ev0]. unfold unwind_ev, unwind_extract. rewrite Ev0.
  assert (X : exists v, eval_doc e d = Some v /\ (if is_null v then Some [] else as_list v) = Some vs). { destruct Ev as [Ev|[Ev ->]]; [by exists (JList vs)|by exists JNull]. }
  destruct X as (v & -> & X). cbn [mbind option_bind]. rewrite X. cbn [mbind option_bind]. apply mapM_is_Some_2. apply Forall_lookup. intros i x Hx.
  assert (Hi : (i < length vs)%nat) by (apply lookup_lt_Some in Hx; by rewrite list_elems_length in Hx). destruct (lookup_lt_is_Some_2 vs i Hi) as [v1 Hv1]. rewrite <- Len in Hi. destruct (lookup_lt_is_Some_2 l i Hi) as [d2 Hd2].
  assert (Hy := eq_trans (eq_sym (list_elems_lookup vs 0%Z i v1 Hv1)) Hx). injection Hy as <-. destruct (Hl i v1 d2 Hv1 Hd2) as (d1 & name & H1 & H2 & H3). exists d2. unfold unwind_transform, list_elem. rewrite Hp. cbn [mbind option_bind]. refine (eq_trans (f_equal (fun z => z ≫= _) H1) _). cbn [mbind option_bind]. by rewrite H2.
Qed.
Lemma safe_total kinds s q : stage_clean s -> stage_safe kinds s -> stage_op clean s = Some q -> op_total (DD := json_docs_on clean) q.
Proof.
  intros HC HS Hq. destruct (stage_op_ok clean Hex s q (fun _ => eq_refl) HC Hq) as [_ Ok]. destruct s as [kd e]. unfold stage_op, stage_safe in *. cbn [st_kind st_expr] in *. destruct kd; try done.
  - injection Hq as <-. split; [exact Ok|]. intros d Hd. destruct (HS d (key_clean d Hd)) as [b Eb]. unfold select_ev. rewrite Eb. cbn. by eexists.
  - injection Hq as <-. destruct Ok as (O1 & O2 & O3). split; [done|]. split; [|done]. intros d Hd. destruct (HS d (key_clean d Hd)) as [d' Ed]. rewrite (projected_ev _ _ _ Ed). by eexists.
  - destruct (literal_string e) as [path|] eqn:El; [|done]. injection Hq as <-. destruct Ok as [O1 O2]. split; [|done]. intros d Hd. destruct (HS d (key_clean d Hd)) as [[l Hl] Hv]. by eapply unwound_ev.
Qed.
Lemma combination_clean kinds : Forall (fun k => utf8_ok k = true) kinds -> forall ds, Forall (fun d => clean d = true) ds -> forall acc, clean acc = true -> clean (foldl (fun m e => mset m e.1 (JMap e.2)) acc (combine kinds ds)) = true.
Proof.
  induction 1 as [|k kinds Hk _ IH]; intros [|d ds] F acc Ha; try done. cbn [combine foldl fst snd]. apply Forall_cons in F as [Hd F]. apply IH; [done|]. apply (clean_set acc k (JMap d)); done.
Qed.
Lemma join_doc_any names : forall ds acc, join_doc acc names ds = foldl (fun m e => mset m e.1 (JMap e.2)) acc (combine names ds).
Proof. induction names as [|n names IH]; intros [|d ds] acc; try done. cbn [join_doc combine foldl fst snd]. apply IH. Qed.
Lemma join_total kinds e : stage_safe kinds (Stage KJoin e) -> jev_total (DD := json_docs_on clean) (join_ev clean kinds e).
Proof.
  intros [Hk HS] t Ft. assert (Fc : Forall (fun d => clean d = true) t) by (eapply Forall_impl; [exact Ft|]; intros d; apply key_clean).
  destruct (HS t Fc) as [b Eb]. unfold jev_good, join_ev, select_ev. rewrite join_doc_any. fold (combination kinds t). cbn [st_expr] in Eb. rewrite Eb. cbn. eexists. split; [done|].
  intros d' Hd'. destruct b; [|done]. destruct Hd' as [<-|[]]. assert (C : clean (combination kinds t) = true) by (by apply combination_clean). destruct (clean_key clean _ C C) as [k Hkk]. by exists k.
Qed.
Lemma conf_safe b c : sensible sortv b -> safe b -> conf_of b c -> never_fails c.
Proof.
  intros So Sa (j & rest & ops & Ej & Ep & ->). unfold safe in Sa. assert (C := s_clean _ _ So). set (kinds := map gvk_kind (b_sources b)) in *.
  assert (X : Forall (stage_safe kinds) rest /\ Forall stage_clean rest /\ forall e, j = Some e -> stage_safe kinds (Stage KJoin e)).
  { destruct (b_stages b) as [|[kd e] p]; cbn in Ej; [injection Ej as <- <-; done|]. destruct kd; injection Ej as <- <-; try (split_and!; done).
    apply Forall_cons in Sa as [S1 Sa]. apply Forall_cons in C as [_ C]. split_and!; [done..|]. by intros e' [= <-]. }
  destruct X as (S1 & S2 & S3). split; cbn [c_stages c_join].
  - apply Forall_forall. intros q Hq. apply elem_of_list_In in Hq. apply mapM_Some_1 in Ep. clear -Hex S1 S2 Ep Hq.
    induction Ep as [|s q' rest ops E _ IH]; [done|]. apply Forall_cons in S1 as [A S1]. apply Forall_cons in S2 as [B S2]. destruct Hq as [<-|Hq]; [by eapply safe_total|by apply IH].
  - intros jev E. destruct j as [e|]; [|done]. injection E as <-. by apply join_total, S3.
Qed.
Lemma confs_safe bs cs : Forall (sensible sortv) bs -> Forall safe bs -> Forall2 conf_of bs cs -> Forall never_fails cs.
Proof. intros S A F. apply Forall_lookup. intros k c Hc. destruct (Forall2_lookup_r _ _ _ _ _ F Hc) as (b & Hb & Cf). eapply conf_safe; [| |exact Cf]; by eapply Forall_lookup_1. Qed.
Lemma confs_acyclic bs cs : Forall2 conf_of bs cs -> no_circle bs -> acyclic cs.
Proof.
  intros F [rank A]. exists rank. intros j k c c' Hj Hk. destruct (Forall2_lookup_r _ _ _ _ _ F Hj) as (b & Hb & (? & ? & ? & _ & _ & ->)). destruct (Forall2_lookup_r _ _ _ _ _ F Hk) as (b' & Hb' & (? & ? & ? & _ & _ & ->)). by apply (A j k b b').
Qed.

(** At rest *)
Variable hash : string -> string.
Variable has_status unconditional : gvk -> bool.
Variable lister : store -> list jobj.
Variable o : nat -> order.
Variable bs : list (built clean).
Variable cs : list config.
Hypothesis Hsu : surroundings hash lister o.
Hypothesis Hw : Forall wired bs.
Hypothesis Hse : Forall (sensible sortv) bs.
Hypothesis Hcf : Forall2 conf_of bs cs.
Hypothesis Hok : Forall2 config_ok cs (map b_pipe bs).
Hypothesis Hap : own_targets bs.
Notation ps := (map b_pipe bs).
Lemma decl_life c0 l w : cluster_fit hash c0 -> Forall (lact_fit hash) l -> l_run clean sortv hash has_status unconditional lister o ps (Site clean (net0 clean ps) c0) l = Some w ->
  linv sortv hash has_status o cs ps (last_start c0 l) w.
Proof.
  intros F0 F R. destruct Hsu as (Ho & Hl & Hh). apply (lives_unique sortv hash has_status unconditional lister o cs ps Hex Ho Hl Hh Hok (confs_apart bs cs Hcf Hap) (confs_unique bs cs Hw Hse Hcf) c0 l w F0 F R).
Qed.
Lemma decl_rest c0 l w k b : cluster_fit hash c0 -> Forall (lact_fit hash) l -> l_run clean sortv hash has_status unconditional lister o ps (Site clean (net0 clean ps) c0) l = Some w -> quiet (at_net clean w) -> bs !! k = Some b ->
  exists n v R, t_nodes clean (at_net clean w) !! k = Some n /\ now (at_net clean w) (b_sources b) v /\ yields sortv (b_sources b) (b_stages b) v R
    /\ forall i m, apply_ops no_objects (n_written clean n) i = Some m <-> asked (b_target b) R i m.
Proof.
  intros F0 F Ru Q Hb. assert (L := decl_life c0 l w F0 F Ru). assert (I := l_net _ _ _ _ _ _ _ _ L). destruct Hsu as (Ho & Hl & Hh).
  destruct (Forall2_lookup_l _ _ _ _ _ Hcf Hb) as (c & Hc & Cf). assert (T := inv_tidy sortv hash o cs ps (confs_unique bs cs Hw Hse Hcf) _ I).
  assert (exists n, t_nodes clean (at_net clean w) !! k = Some n) as [n Hn]. { apply lookup_lt_is_Some_2. rewrite (i_len _ _ _ _ _ _ I). by eapply lookup_lt_Some. }
  destruct (settled sortv hash o cs ps Hex Ho Hh Hok _ I T Q k c n Hc Hn) as (B & W & X & S & _).
  destruct (i_node _ _ _ _ _ _ I k n Hn) as (c' & p0 & Hc' & Hp & N). rewrite Hc in Hc'. injection Hc' as <-. assert (HH := node_history sortv (o k) c p0 _ n N).
  assert (Es : c_sources c = b_sources b) by (by destruct Cf as (? & ? & ? & _ & _ & ->)). assert (Et : c_target c = b_target b) by (by destruct Cf as (? & ? & ? & _ & _ & ->)). rewrite Es in HH, W. rewrite Et in S.
  rewrite app_nil_r in HH || idtac.
  destruct (query_yields b c (n_done clean n) B) as (R & RB & Y); [by eapply Forall_lookup_1|by eapply Forall_lookup_1|done|exact HH|done|].
  exists n, (after (n_done clean n)), R. split_and!; [done..|]. by apply (shows_asked (b_target b) B R).
Qed.
End decl.
