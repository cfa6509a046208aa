(** The operators that annotate pods. *)
From Verif Require Import JsonModel ObjModel ZSetModel OpsModel ExecModel PipelineModel ValueModel PipeJsonModel StageModel ExampleModel AnnotatorModel.
From Verif Require Import ExprSpec ZSetSpec OpsSpec ExecSpec JsonSpec CleanSpec PipelineSpec StageSpec StageRunSpec ExampleSpec AnnotatorSpec.
From Verif Require Import JsonProofs ObjProofs CleanProofs ExprProofs2 ExprProofs3 ConvertProofs PipeProofs PipeProofs2 PipeProofs3 StageNames StageProofs StageClean StageRunProofs DeclProofs PropsExpr PropsStage PropsStageRun ExampleProofs ExampleProofs2 ExampleProofs3 ExampleProofs4 ExampleProofs5 StageChain QuietProofs.
#[local] Open Scope string_scope.

Lemma run_length `{FloatFmt} P sortv o ds : forall k p p' outs, pipe_run P sortv o k p ds = (p', map Some outs) -> length outs = length ds.
Proof.
  induction ds as [|d ds IH]; intros k p p' outs E; cbn in E; [injection E as _ E; by destruct outs|].
  destruct (evaluate P sortv (osub o k) p d) as [p1 r]. destruct (pipe_run P sortv o (S k) p1 ds) as [p2 rs] eqn:E2. injection E as -> E. destruct outs as [|x outs]; [done|]. injection E as -> ->.
  cbn [length]. f_equal. by eapply IH.
Qed.
Section annotator.
Context {FF : FloatFmt} {EE : ExprEnv}.
Hypothesis HP : reads_fields.
Hypothesis HO : is_order iterate.
Hypothesis HE : env_clean.
Notation yes := (fun _ : jobj => True).
Notation ns_at d := (str_at ["metadata"; "namespace"] d).
Notation name_at d := (str_at ["metadata"; "name"] d).

(** One annotation [key], whose value [e] computes. *)
Section any.
Variables (key : string) (e : expr) (f : jobj -> string) (Q : jobj -> Prop).
Hypothesis Hkey : good_key key = true.
Hypothesis HQ : forall d, Q d -> named_pod d /\ gives e (Ctx (JMap d) JNull) (JStr (f d)) /\ text (f d).
Definition an_project : expr := dictE [("metadata", dictE [("annotations", dictE [(key, e)]); ("name", strE "$.metadata.name"); ("namespace", strE "$.metadata.namespace")])].
Notation an_stages := [Stage KProject an_project].
Hypothesis Hclean : Forall stage_clean an_stages.
Definition an_doc (ns n v : string) : jobj := [("metadata", JMap [("annotations", JMap [(key, JStr v)]); ("name", JStr n); ("namespace", JStr ns)])].
Definition an_out (d : jobj) : jobj := an_doc (ns_at d) (name_at d) (f d).
Lemma an_doc_id ns n v : text n -> doc_id (an_doc ns n v) = Some (ns, n).
Proof. intros H. destruct n as [|c n]; [done|]. reflexivity. Qed.
Lemma an_doc_out ns n v : text ns -> text n -> encapsulate pod_kind (an_doc ns n v) ns n = annotation_patch ns n key v.
Proof. intros H1 H2. destruct n as [|c n]; [done|]. destruct ns as [|b ns]; [done|]. reflexivity. Qed.
Lemma an_gives d : Q d -> projected an_project d (an_out d).
Proof.
  intros HD. destruct (HQ d HD) as ((ns & n & L1 & L2 & T1 & T2) & HG & HT). left. unfold eval_doc, an_out. rewrite (str_at_is _ _ _ L1), (str_at_is _ _ _ L2).
  assert (gives an_project (Ctx (JMap d) JNull) (JMap (an_doc ns n (f d)))) as ->; [|done]. unfold an_project, an_doc.
  apply (one_gives HO); [reflexivity| |exact I].
  apply (three_gives HO "annotations" "name" "namespace" _ _ _ _ (JMap [(key, JStr (f d))]) (JStr n) (JStr ns)); [reflexivity| |exact I| |by apply text_inert| |by apply text_inert|reflexivity].
  - apply (one_gives HO); [done|done|by apply text_inert].
  - by_path HP ["metadata"; "name"]; [rewrite L2; by apply text_now|done].
  - by_path HP ["metadata"; "namespace"]; [rewrite L1; by apply text_now|done].
Qed.
Lemma an_chain : chain Q an_stages (fun d => flat_map (fun x => [x]) [an_out d]) yes.
Proof. apply (chain_cons _ yes _ _ _ (fun d => [an_out d])); [done| |by apply chain_nil]. intros d [_ Hd]. split; [|by apply List.Forall_forall]. eexists. split; [by apply an_gives|done]. Qed.
Notation all_pods := (Forall (fun d : delta => Q (stripped (d_obj d)))).
Lemma an_in {ds d} : history_ok clean [pod_kind] ∅ ds -> all_pods ds -> In d (of_kind "Pod" (after ds)) -> Q d /\ clean d = true.
Proof. intros HH HC Hd. destruct (of_kind_in [pod_kind] _ "Pod" _ ltac:(done) HH Hd) as (? & ? & x & Hx). split; [|done]. by eapply (after_all Q). Qed.
Lemma flat_one {A B} (g : A -> B) l : flat_map (fun d => flat_map (fun x => [x]) [g d]) l = map g l.
Proof. induction l as [|x l IH]; [done|]. cbn in *. by rewrite IH. Qed.
Lemma an_yields sortv ds R : history_ok clean [pod_kind] ∅ ds -> all_pods ds -> yields sortv [pod_kind] an_stages (after ds) R -> Permutation (map an_out (of_kind "Pod" (after ds))) R.
Proof.
  intros HH HC (s & [= <-] & HM). apply (chain_means _ _ _ _ _ an_chain Hclean) in HM; [by rewrite flat_one in HM|].
  apply List.Forall_forall. intros d Hd. destruct (an_in HH HC Hd). done.
Qed.
Lemma an_names ds : history_ok clean [pod_kind] ∅ ds -> all_pods ds -> one_per_name (map an_out (of_kind "Pod" (after ds))).
Proof.
  intros HH HC. assert (HK : one_per_name (of_kind "Pod" (after ds))).
  { apply (kind_names [pod_kind]); [done|apply NoDup_singleton|]. eapply Forall_impl; [exact HC|]. intros d Hd. destruct (HQ _ Hd) as ((ns & n & L) & _). eexists. by apply (located_id _ ns n). }
  assert (HI : forall d, In d (of_kind "Pod" (after ds)) -> doc_id (an_out d) = doc_id d).
  { intros d Hd. destruct (an_in HH HC Hd) as [Hq _]. destruct (HQ d Hq) as ((ns & n & L) & _). rewrite (located_id _ _ _ L). destruct L as (L1 & L2 & _ & T). unfold an_out. rewrite (str_at_is _ _ _ L1), (str_at_is _ _ _ L2). by apply an_doc_id. }
  destruct HK as [ND HN]. split.
  - rewrite map_map. erewrite map_ext_in; [exact ND|]. exact HI.
  - intros x Hx. apply in_map_iff in Hx as (d & <- & Hd). rewrite (HI d Hd). by apply HN.
Qed.
Lemma an_hold sortv pp o ds : (forall l, Permutation (sortv l) l) -> fmt_ok -> fmt_inj ->
  declare clean pod_kind [pod_kind] an_stages = Some pp -> order_ok o -> history_ok clean [pod_kind] ∅ ds -> all_pods ds ->
  exists p' outs, pipe_run clean sortv o 0 pp ds = (p', map Some outs)
    /\ forall ns n m, apply_ops no_objects (concat outs) (ns, n) = Some m <->
         exists d, In d (of_kind "Pod" (after ds)) /\ located d ns n /\ m = annotation_patch ns n key (f d).
Proof.
  intros HS F1 F2 HD Ho HH HC.
  destruct (C51_runs_partial FF EE sortv pod_kind [pod_kind] an_stages pp o ds (fun k d => Q d /\ get_kind d = k) yes F1 F2 HS) as (p' & outs & R & HR & HY & HT); try done.
  - apply NoDup_singleton.
  - apply List.Forall_cons; [vm_compute; reflexivity|apply List.Forall_nil].
  - eapply each_on; [|exact HH|exact HC]. apply List.Forall_cons; [done|apply List.Forall_nil].
  - exists pod_kind. split; [done|]. apply (chain_on _ _ _ _ (chain_weak _ _ _ _ _ an_chain (fun d H => proj1 H)) Hclean).
  - intros pre post R -> HY. apply history_app in HH as [HH _]. apply Forall_app in HC as [HC _]. eapply one_per_name_perm; [by apply (an_yields sortv)|]. by apply an_names.
  - exists p', outs. split; [done|]. intros ns n m. rewrite HT. apply an_yields in HY; [|done|done]. split.
    + intros (x & Hx & Hi & ->). apply (Permutation_in _ (Permutation_sym HY)), in_map_iff in Hx as (d & <- & Hd). destruct (an_in HH HC Hd) as [Hq _]. destruct (HQ d Hq) as ((ns' & n' & L) & _).
      pose proof L as (L1 & L2 & T1 & T2). unfold an_out in *. rewrite (str_at_is _ _ _ L1), (str_at_is _ _ _ L2) in *. rewrite an_doc_id in Hi by done. injection Hi as -> ->. exists d. split_and!; [done|done|]. cbn [fst snd]. by apply an_doc_out.
    + intros (d & Hd & L & ->). pose proof L as (L1 & L2 & T1 & T2). exists (an_out d). unfold an_out. rewrite (str_at_is _ _ _ L1), (str_at_is _ _ _ L2). split_and!.
      * apply (Permutation_in _ HY), in_map_iff. exists d. split; [|done]. unfold an_out. by rewrite (str_at_is _ _ _ L1), (str_at_is _ _ _ L2).
      * by apply an_doc_id.
      * symmetry. by apply an_doc_out.
Qed.
(** An event that leaves the value alone. *)
Lemma an_same sortv ds e' d ns n : history_ok clean [pod_kind] ∅ (ds ++ [e']) -> all_pods (ds ++ [e']) -> d_type e' <> Deleted ->
  In d (of_kind "Pod" (after ds)) -> located d ns n -> located (stripped (d_obj e')) ns n -> f d = f (stripped (d_obj e')) ->
  forall R R', yields sortv [pod_kind] an_stages (after ds) R -> yields sortv [pod_kind] an_stages (after (ds ++ [e'])) R' -> Permutation R R'.
Proof.
  intros HH HC Ht Hd L L' Ef.
    intros R R' HY HY'. apply history_app in HH as HH1. destruct HH1 as [HH1 HH2]. apply Forall_app in HC as HC1. destruct HC1 as [HC1 _].
    rewrite <-(an_yields sortv ds R HH1 HC1 HY), <-(an_yields sortv _ R' HH HC HY').
    assert (Ea : after (ds ++ [e']) = <[source_id (d_obj e') := stripped (d_obj e')]> (after ds)).
    { rewrite after_app. cbn [foldl]. unfold apply_event. by destruct (d_type e'). }
    rewrite Ea. apply (of_kind_replace _ _ _ d).
    - destruct (convert_run_ok clean [pod_kind] ds ∅ ∅ (world_empty clean _) mirrors_empty HH1) as (src1 & zs1 & _ & _ & _ & Ww & _).
      destruct (of_kind_in [pod_kind] _ "Pod" _ ltac:(done) HH1 Hd) as (_ & _ & x & Hx). destruct (wo_id _ _ _ Ww _ _ Hx) as (Ex & _ & Hs).
      assert (x = source_id (d_obj e')) as <-; [|done]. rewrite Ex, <-(stripped_source (d_obj e')). unfold source_id.
      rewrite (doc_obj_id d _ (located_id _ _ _ L)), (doc_obj_id _ _ (located_id _ _ _ L')). f_equal.
      destruct HH2 as [(_ & _ & _ & Hg & _) _]. rewrite stripped_gvk. apply elem_of_list_singleton in Hs, Hg. congruence.
    - unfold an_out. rewrite Ef. destruct L as (A1 & A2 & _), L' as (B1 & B2 & _). by rewrite (str_at_is _ _ _ A1), (str_at_is _ _ _ A2), (str_at_is _ _ _ B1), (str_at_is _ _ _ B2).
Qed.
Lemma an_quiet sortv pp o ds e' d ns n : (forall l, Permutation (sortv l) l) -> fmt_ok -> fmt_inj ->
  declare clean pod_kind [pod_kind] an_stages = Some pp -> order_ok o -> history_ok clean [pod_kind] ∅ (ds ++ [e']) -> all_pods (ds ++ [e']) -> d_type e' <> Deleted ->
  In d (of_kind "Pod" (after ds)) -> located d ns n -> located (stripped (d_obj e')) ns n -> f d = f (stripped (d_obj e')) ->
  exists p' outs, length outs = length ds /\ pipe_run clean sortv o 0 pp (ds ++ [e']) = (p', map Some (outs ++ [[]])).
Proof.
  intros HS F1 F2 HD Ho HH HC Ht Hd L L' Ef. destruct (an_hold sortv pp o (ds ++ [e']) HS F1 F2 HD Ho HH HC) as (p' & outs & HR & _). exists p', (take (length ds) outs).
  assert (E : outs = (take (length ds) outs ++ [[]])%list).
  { apply (c51_quiet sortv pod_kind [pod_kind] an_stages pp o ds e' p' outs (exact_clean F1 F2)); try done; [apply NoDup_singleton|].
    exact (an_same sortv ds e' d ns n HH HC Ht Hd L L' Ef). }
  rewrite <-E. split; [|done]. assert (length outs = length (ds ++ [e'])) as Ll by by eapply run_length.
  rewrite take_length_le; [done|]. rewrite Ll, app_length. lia.
Qed.
End any.

Definition ct_expr : expr := op1 "@string" (opl "@len" [strE "$.spec.containers"]).
Lemma count_stages : unmarshal_pipeline count_json = Val [Stage KProject (an_project "dcontroller.io/container-num" ct_expr)].
Proof. reflexivity. Qed.
Lemma managed_stages : unmarshal_pipeline managed_json = Val [Stage KProject (an_project "dcontroller.io/managed" (strE "true"))].
Proof. reflexivity. Qed.
Definition count_of (d : jobj) : nat := match at_ ["spec"; "containers"] d with JList l => length l | _ => 0%nat end.
Lemma ct_gives d : counted_pod d -> named_pod d /\ gives ct_expr (Ctx (JMap d) JNull) (JStr (enc_int (Z.of_nat (count_of d)))) /\ text (enc_int (Z.of_nat (count_of d))).
Proof.
  intros [HN (c & l & Hl & Hc)]. split; [done|]. unfold count_of. rewrite Hl. split.
  - unfold ct_expr. apply (string_gives). rewrite opl_op1. apply C43_len. apply (list_gives _ _ [JList l]). apply Forall2_cons_2; [|apply Forall2_nil_2].
    by_path HP ["spec"; "containers"]; rewrite Hl; done.
  - apply digits_text.
Qed.
Lemma ct_clean : Forall stage_clean [Stage KProject (an_project "dcontroller.io/container-num" ct_expr)].
Proof. repeat (apply List.Forall_cons; [apply (C51_tidy _ _ HE); vm_compute; reflexivity|]). apply List.Forall_nil. Qed.
Lemma mg_clean : Forall stage_clean [Stage KProject (an_project "dcontroller.io/managed" (strE "true"))].
Proof. repeat (apply List.Forall_cons; [apply (C51_tidy _ _ HE); vm_compute; reflexivity|]). apply List.Forall_nil. Qed.
Lemma count_is d c : has_containers d c -> count_of d = c.
Proof. intros (l & H & <-). unfold count_of. by rewrite H. Qed.
Lemma count_hold sortv p pp o ds : (forall l, Permutation (sortv l) l) -> fmt_ok -> fmt_inj ->
  unmarshal_pipeline count_json = Val p -> declare clean pod_kind [pod_kind] p = Some pp -> order_ok o -> history_ok clean [pod_kind] ∅ ds -> each counted_pod ds ->
  exists p' outs, pipe_run clean sortv o 0 pp ds = (p', map Some outs)
    /\ forall ns n m, apply_ops no_objects (concat outs) (ns, n) = Some m <->
         exists d c, In d (of_kind "Pod" (after ds)) /\ located d ns n /\ has_containers d c /\ m = annotation_patch ns n "dcontroller.io/container-num" (enc_int (Z.of_nat c)).
Proof.
  intros HS F1 F2 HU HD Ho HH HC. rewrite count_stages in HU. injection HU as <-.
  destruct (an_hold "dcontroller.io/container-num" ct_expr (fun d => enc_int (Z.of_nat (count_of d))) counted_pod eq_refl ct_gives ct_clean sortv pp o ds HS F1 F2 HD Ho HH HC) as (p' & outs & HR & HT).
  exists p', outs. split; [done|]. intros ns n m. rewrite HT. split.
  - intros (d & Hd & L & ->). destruct (of_kind_in [pod_kind] _ "Pod" _ ltac:(done) HH Hd) as (_ & _ & x & Hx). destruct (after_all counted_pod ds x d HC Hx) as [_ [c Hc]]. exists d, c. by rewrite (count_is d c Hc).
  - intros (d & c & Hd & L & Hc & ->). exists d. by rewrite (count_is d c Hc).
Qed.
Lemma count_quiet sortv p pp o ds e d ns n c : (forall l, Permutation (sortv l) l) -> fmt_ok -> fmt_inj ->
  unmarshal_pipeline count_json = Val p -> declare clean pod_kind [pod_kind] p = Some pp -> order_ok o -> history_ok clean [pod_kind] ∅ (ds ++ [e]) -> each counted_pod (ds ++ [e]) -> d_type e <> Deleted ->
  In d (of_kind "Pod" (after ds)) -> located d ns n -> located (stripped (d_obj e)) ns n -> has_containers d c -> has_containers (stripped (d_obj e)) c ->
  exists p' outs, length outs = length ds /\ pipe_run clean sortv o 0 pp (ds ++ [e]) = (p', map Some (outs ++ [[]])).
Proof.
  intros HS F1 F2 HU HD Ho HH HC Ht Hd L L' H H'. rewrite count_stages in HU. injection HU as <-.
  apply (an_quiet "dcontroller.io/container-num" ct_expr (fun d => enc_int (Z.of_nat (count_of d))) counted_pod eq_refl ct_gives ct_clean sortv pp o ds e d ns n); try done.
  by rewrite (count_is _ _ H), (count_is _ _ H').
Qed.
Lemma managed_hold sortv p pp o ds : (forall l, Permutation (sortv l) l) -> fmt_ok -> fmt_inj ->
  unmarshal_pipeline managed_json = Val p -> declare clean pod_kind [pod_kind] p = Some pp -> order_ok o -> history_ok clean [pod_kind] ∅ ds -> each named_pod ds ->
  exists p' outs, pipe_run clean sortv o 0 pp ds = (p', map Some outs)
    /\ forall ns n m, apply_ops no_objects (concat outs) (ns, n) = Some m <->
         exists d, In d (of_kind "Pod" (after ds)) /\ located d ns n /\ m = annotation_patch ns n "dcontroller.io/managed" "true".
Proof.
  intros HS F1 F2 HU HD Ho HH HC. rewrite managed_stages in HU. injection HU as <-.
  assert (HQ : forall d, named_pod d -> named_pod d /\ gives (strE "true") (Ctx (JMap d) JNull) (JStr "true") /\ text "true") by (intros d Hd; split; [done|]; split; [by apply lit_gives|done]).
  exact (an_hold "dcontroller.io/managed" (strE "true") (fun _ => "true") named_pod eq_refl HQ mg_clean sortv pp o ds HS F1 F2 HD Ho HH HC).
Qed.
Lemma managed_quiet sortv p pp o ds e d ns n : (forall l, Permutation (sortv l) l) -> fmt_ok -> fmt_inj ->
  unmarshal_pipeline managed_json = Val p -> declare clean pod_kind [pod_kind] p = Some pp -> order_ok o -> history_ok clean [pod_kind] ∅ (ds ++ [e]) -> each named_pod (ds ++ [e]) -> d_type e <> Deleted ->
  In d (of_kind "Pod" (after ds)) -> located d ns n -> located (stripped (d_obj e)) ns n ->
  exists p' outs, length outs = length ds /\ pipe_run clean sortv o 0 pp (ds ++ [e]) = (p', map Some (outs ++ [[]])).
Proof.
  intros HS F1 F2 HU HD Ho HH HC Ht Hd L L'. rewrite managed_stages in HU. injection HU as <-.
  assert (HQ : forall d, named_pod d -> named_pod d /\ gives (strE "true") (Ctx (JMap d) JNull) (JStr "true") /\ text "true") by (intros d' Hd'; split; [done|]; split; [by apply lit_gives|done]).
  by apply (an_quiet "dcontroller.io/managed" (strE "true") (fun _ => "true") named_pod eq_refl HQ mg_clean sortv pp o ds e d ns n).
Qed.
End annotator.
