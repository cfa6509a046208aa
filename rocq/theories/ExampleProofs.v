(** Evaluation of the expressions of the shipped examples. *)
From Verif Require Import JsonModel ObjModel ZSetModel OpsModel ExecModel PipelineModel ValueModel PipeJsonModel StageModel ExampleModel.
From Verif Require Import ExprSpec ZSetSpec OpsSpec ExecSpec JsonSpec CleanSpec PipelineSpec StageSpec ExampleSpec.
From Verif Require Import JsonProofs ExprProofs2 ExprProofs3 ConvertProofs PipeProofs PipeProofs2 PipeProofs3 StageNames StageProofs PropsExpr.
#[local] Open Scope string_scope.

Section eval.
Context {FF : FloatFmt} {EE : ExprEnv}.
Hypothesis HP : reads_fields.
Hypothesis HO : is_order iterate.

Lemma text_inert s : text s -> inert (JStr s).
Proof. destruct s as [|c s]; [done|]. by intros [H _]. Qed.
Lemma text_now s : text s -> is_str "@now" (JStr s) = false.
Proof. destruct s as [|c s]; [done|]. intros [_ H]. cbn. destruct (ascii_dec c "@") as [->|]; [done|]. by destruct (Ascii.eqb_spec c "@"). Qed.

Lemma path_gives l d sub : l <> [] -> Forall word l -> is_str "@now" (at_path l d) = false -> gives (strE ("$" +:+ dotted l)) (Ctx d sub) (at_path l d).
Proof.
  intros Hl HF HN. pose proof (HP l d Hl HF) as E. destruct l as [|k l]; [done|]. apply Forall_cons in HF as [[Hk _] _].
  destruct k as [|c k]; [done|].
  change ("$" +:+ dotted (String c k :: l)) with (String dollar (String "." (String c (k +:+ dotted l)))) in *.
  unfold gives.
  change (eval (strE (String dollar (String "." (String c (k +:+ dotted l))))) (Ctx d sub)) with
    (rbind (get_raw (String dollar (String "." (String c (k +:+ dotted l)))) d) (fun v => Val (if is_str "@now" v then JStr now else v))).
  rewrite E. cbn [rbind]. by rewrite HN.
Qed.
Lemma subject_gives l d x : x <> JNull -> l <> [] -> Forall word l -> is_str "@now" (at_path l x) = false -> gives (strE ("$$" +:+ dotted l)) (Ctx d x) (at_path l x).
Proof.
  intros Hx Hl HF HN. change ("$$" +:+ dotted l) with (String dollar (String dollar (dotted l))).
  apply C43_subject; [done| |by apply (path_gives l x JNull)]. destruct l as [|k l]; [done|]. done.
Qed.
Lemma word_ok l : forallb (fun s => negb (String.eqb s EmptyString) && letters s) l = true -> Forall word l.
Proof.
  induction l as [|s l IH]; [intros _; apply List.Forall_nil|]. cbn [forallb]. intros [[H1 H2]%andb_prop H]%andb_prop. apply List.Forall_cons; [|by apply IH].
  split; [|done]. intros ->. done.
Qed.
(** Literal text. *)
Lemma lit_gives s ctx : text s -> gives (strE s) ctx (JStr s).
Proof.
  intros H. unfold gives. change (eval (strE s) ctx) with (rbind (get_path ctx s) (fun v => Val (if is_str "@now" v then JStr now else v))).
  assert (get_path ctx s = Val (JStr s)) as ->. { destruct s as [|c s]; [done|]. destruct H as [H _]. cbn. by rewrite decide_False. }
  cbn [rbind]. by rewrite text_now.
Qed.
Lemma eq_gives a b ctx s y : gives a ctx (JStr s) -> gives b ctx y -> gives (opl "@eq" [a; b]) ctx (JBool (is_str s y)).
Proof.
  intros HA HB. unfold gives. change (eval (opl "@eq" [a; b]) ctx) with (rbind (eval (listE [a; b]) ctx) op_eq).
  assert (eval (listE [a; b]) ctx = Val (JList [JStr s; y])) as ->.
  { apply (list_gives [a; b] ctx [JStr s; y]). apply Forall2_cons_2; [done|]. apply Forall2_cons_2; [done|]. apply Forall2_nil_2. }
  cbn. destruct y; try done. cbn. by rewrite String.eqb_sym.
Qed.
Lemma and_gives es bs ctx : Forall2 (fun e b => gives e ctx (JBool b)) es bs -> gives (opl "@and" es) ctx (JBool (forallb (fun b => b) bs)).
Proof.
  intros H. unfold gives. rewrite and_eval. induction H as [|e b es bs H _ IH]; [done|]. cbn [map junction]. assert (test (eval e) ctx = Val b) as -> by by apply test_true.
  cbn [rbind]. destruct b; cbn; [exact IH|done].
Qed.
Lemma concat_gives es ctx ss : all_give es ctx (map JStr ss) -> gives (opl "@concat" es) ctx (JStr (String.concat EmptyString ss)).
Proof.
  intros H. apply (C43_concat_partial FF EE (listE es) ctx (map JStr ss)).
  - pose proof (list_gives es ctx (map JStr ss) H) as E. rewrite unpack_id in E; [done|]. by destruct ss.
  - clear H. induction ss as [|s ss IH]; [apply Forall2_nil_2|]. apply Forall2_cons_2; [by left|done].
Qed.
End eval.

(** *** The objects of a kind *)
Lemma of_kind_in `{FloatFmt} sources ds k d : k <> "" -> history_ok clean sources ∅ ds -> In d (of_kind k (after ds)) ->
  get_kind d = k /\ clean d = true /\ exists x, after ds !! x = Some d.
Proof.
  intros Hk0 HH Hd. destruct (convert_run_ok clean sources ds ∅ ∅ (world_empty clean _) mirrors_empty HH) as (src1 & zs1 & _ & _ & _ & Ww & _).
  unfold of_kind in Hd. apply in_map_iff in Hd as ([x m] & <- & Hd). apply filter_In in Hd as [Hd Hk]. cbn [fst snd] in *. apply bool_decide_eq_true in Hk.
  apply elem_of_list_In, elem_of_map_to_list in Hd. destruct (wo_id _ _ _ Ww _ _ Hd) as (Ex & _). destruct (wo_doc _ _ _ Ww _ _ Hd) as (_ & Hc & _). split; [|split; [done|by exists x]].
  rewrite Ex in Hk. unfold source_id in Hk. cbn [fst] in Hk. unfold get_gvk in Hk. destruct (parse_gv _) as [[]|]; [done|]. by subst k.
Qed.
Lemma after_all (Q : jobj -> Prop) ds x m : Forall (fun d => Q (stripped (d_obj d))) ds -> after ds !! x = Some m -> Q m.
Proof.
  unfold after. assert (G : forall ds w, (forall x m, w !! x = Some m -> Q m) -> Forall (fun d => Q (stripped (d_obj d))) ds ->
     forall x m, foldl apply_event w ds !! x = Some m -> Q m).
  { clear. induction ds as [|d ds IH]; intros w Hw HN x m; simpl; [apply Hw|]. apply Forall_cons in HN as [Hd HN]. apply IH; [|done].
    intros y m'. unfold apply_event. destruct (d_type d); try (rewrite lookup_insert_Some; intros [[<- <-]|[_ Hy]]; [done|by apply (Hw y)]).
    rewrite lookup_delete_Some. intros [_ Hy]. by apply (Hw y). }
  intros HF. apply (G ds ∅); [|done]. intros y m'. by rewrite lookup_empty.
Qed.
Lemma located_id d ns n : located d ns n -> doc_id d = Some (ns, n).
Proof.
  intros (H1 & H2 & _ & Hn). unfold doc_id. cbn [at_path] in *. destruct (mget d "metadata") as [v|]; [|done]. destruct v as [| | | | | |m]; try done.
  destruct (mget m "namespace") as [v|]; [|done]. subst v. destruct (mget m "name") as [v|]; [|done]. subst v. cbn. rewrite decide_False; [done|]. by intros ->.
Qed.
Lemma kind_names `{FloatFmt} sources ds k : history_ok clean sources ∅ ds -> NoDup (map gvk_kind sources) -> named_history ds -> one_per_name (of_kind k (after ds)).
Proof.
  intros HH HK HN. destruct (convert_run_ok clean sources ds ∅ ∅ (world_empty clean _) mirrors_empty HH) as (src1 & zs1 & _ & _ & _ & Ww & _).
  assert (HL : forall x m, after ds !! x = Some m -> (exists i, doc_id m = Some i /\ PipelineSpec.plain i) /\ x.1 ∈ sources /\ x.2 = default ("", "") (doc_id m)).
  { intros x m Hx. destruct (named_after ds x m HN Hx) as [i Hi]. destruct (wo_id _ _ _ Ww _ _ Hx) as (Ex & Hp & Hs).
    pose proof (doc_obj_id m i Hi) as Eo. rewrite Eo in Hp. split; [by exists i|]. rewrite Ex, Hi. unfold source_id. cbn. by rewrite Eo. }
  assert (HG : forall g1 g2, g1 ∈ sources -> g2 ∈ sources -> gvk_kind g1 = gvk_kind g2 -> g1 = g2).
  { clear -HK. induction sources as [|s l IH]; intros g1 g2 H1 H2 E; [by apply elem_of_nil in H1|]. cbn [map] in HK. apply NoDup_cons in HK as [Hn HK].
    apply elem_of_cons in H1, H2. destruct H1 as [->|H1], H2 as [->|H2]; [done| | |by apply IH].
    - exfalso. apply Hn. rewrite E. by apply elem_of_list_fmap_1.
    - exfalso. apply Hn. rewrite <-E. by apply elem_of_list_fmap_1. }
  unfold of_kind. set (L := map_to_list (after ds)).
  assert (HL' : forall e, In e L -> after ds !! e.1 = Some e.2) by (intros [x m] He; by apply elem_of_list_In, elem_of_map_to_list in He).
  assert (ND : NoDup (map fst L)) by apply NoDup_fst_map_to_list. clearbody L. split.
  - induction L as [|[x m] L IH]; [apply NoDup_nil; done|]. cbn [map fst] in ND. apply NoDup_cons in ND as [Hn ND].
    specialize (IH (fun e He => HL' e (or_intror He)) ND). cbn [List.filter]. case_bool_decide as Hk1; [|done]. cbn [map snd]. apply NoDup_cons. split; [|done].
    intros Hin. apply Hn. apply elem_of_list_In, in_map_iff in Hin as (m' & Em & Hin). apply in_map_iff in Hin as ([x' m2] & <- & Hin). apply filter_In in Hin as [Hin Hk2].
    apply bool_decide_eq_true in Hk2. apply elem_of_list_In, in_map_iff. exists (x', m2). split; [|done]. cbn [fst snd] in *.
    destruct (HL x m (HL' (x, m) (or_introl eq_refl))) as (_ & S1 & E1), (HL x' m2 (HL' (x', m2) (or_intror Hin))) as (_ & S2 & E2).
    destruct x as [g i], x' as [g' i']. cbn [fst snd] in *. f_equal; [apply HG; congruence|congruence].
  - intros d Hd. apply in_map_iff in Hd as ([x m] & <- & Hd). apply filter_In in Hd as [Hd _]. by apply (HL x m), (HL' (x, m)).
Qed.

(** *** A join and a projection *)
Lemma join_project_is `{FloatFmt} `{ExprEnv} sortv sources e e' (sel : list jobj -> bool) (pr : list jobj -> jobj) w R :
  let combos := picks (map (fun s => of_kind (gvk_kind s) w) sources) in
  (forall ds, In ds combos -> eval_doc e (combination (map gvk_kind sources) ds) = Some (JBool (sel ds))) ->
  (forall ds, In ds combos -> sel ds = true -> eval_doc e' (combination (map gvk_kind sources) ds) = Some (JMap (pr ds))) ->
  yields sortv sources [Stage KJoin e; Stage KProject e'] w R -> Permutation (map pr (List.filter sel combos)) R.
Proof.
  intros combos HS HR (l & [_ Hl] & HY). set (comb := combination (map gvk_kind sources)) in *.
  assert (El : l = map comb (List.filter sel combos)).
  { subst l. fold combos. clear HY HR. revert HS. generalize combos. intros L HS. induction L as [|x L IH]; [done|]. cbn [map List.filter].
    assert (holds e (comb x) = sel x) as ->. { unfold holds. rewrite HS by by left. by destruct (sel x). }
    rewrite IH by (intros; apply HS; by right). by destruct (sel x). }
  subst l. rewrite El in HY. clear El. inversion HY as [|s p l l1 l2 l' H1 H2 H3]; subst. inversion H3 as [l r H4|]; subst.
  etransitivity; [|exact H4]. unfold stage_means in H2. cbn [st_kind st_expr] in H2. unfold projects in H2.
  symmetry in H1. apply Permutation_map_inv in H1 as (L & -> & HL).
  assert (l2 = map pr L) as ->; [|by apply Permutation_map].
  assert (HI : forall x, In x L -> In x combos /\ sel x = true) by (intros x Hx; apply (Permutation_in _ (Permutation_sym HL)) in Hx; by apply filter_In in Hx).
  clear -H2 HI HR. revert l2 H2. induction L as [|x L IH]; intros l2 H2; cbn [map] in *; [by apply Forall2_nil_inv_l in H2|].
  apply Forall2_cons_inv_l in H2 as (d & l & Hd & Hl & ->). f_equal; [|apply IH; [intros; apply HI; by right|done]].
  destruct (HI x) as [I1 I2]; [by left|]. specialize (HR x I1 I2). destruct Hd as [Hd|(us & Hd & _)]; congruence.
Qed.
Lemma picks_in {A} (ls : list (list A)) x : In x (picks ls) <-> Forall2 (fun d l => In d l) x ls.
Proof.
  revert x. induction ls as [|l ls IH]; intros x; cbn [picks].
  - split; [intros [<-|[]]; apply Forall2_nil_2|]. intros E. apply Forall2_nil_inv_r in E as ->. by left.
  - rewrite in_flat_map. split.
    + intros (d & Hd & Hx). apply in_map_iff in Hx as (y & <- & Hy). apply Forall2_cons_2; [done|by apply IH].
    + intros E. apply Forall2_cons_inv_r in E as (d & y & Hd & Hy & ->). exists d. split; [done|]. apply in_map. by apply IH.
Qed.
Lemma picks_nodup {A} (ls : list (list A)) : Forall (fun l => NoDup l) ls -> NoDup (picks ls).
Proof.
  induction 1 as [|l ls H _ IH]; cbn [picks]; [apply NoDup_singleton|]. induction H as [|d l Hd Hl IHl]; [apply NoDup_nil; done|]. cbn [flat_map].
  apply NoDup_app. split_and!; [| |done].
  - clear -IH. induction IH as [|x l Hx Hl IHl]; [apply NoDup_nil; done|]. cbn [map]. apply NoDup_cons. split; [|done]. intros Hin. apply elem_of_list_In, in_map_iff in Hin as (y & [= ->] & Hy).
    apply Hx. by apply elem_of_list_In.
  - intros x Hx Hy. apply elem_of_list_In, in_map_iff in Hx as (y & <- & _). apply elem_of_list_In, in_flat_map in Hy as (d' & Hd' & Hy). apply in_map_iff in Hy as (z & [= <- _] & _).
    apply Hd. by apply elem_of_list_In.
Qed.
Lemma nodup_map_inj {A B} (f : A -> B) l : NoDup l -> (forall x y, In x l -> In y l -> f x = f y -> x = y) -> NoDup (map f l).
Proof.
  induction 1 as [|x l Hx Hl IH]; intros HI; cbn [map]; [apply NoDup_nil; done|]. apply NoDup_cons. split.
  - intros Hin. apply elem_of_list_In, in_map_iff in Hin as (y & E & Hy). apply Hx. rewrite <-(HI y x); [by apply elem_of_list_In|by right|by left|done].
  - apply IH. intros y z Hy Hz. apply HI; by right.
Qed.
Lemma nodup_filter {A} (f : A -> bool) l : NoDup l -> NoDup (List.filter f l).
Proof.
  induction 1 as [|x l Hx Hl IH]; cbn [List.filter]; [apply NoDup_nil; done|]. destruct (f x); [|done]. apply NoDup_cons. split; [|done].
  intros Hin. apply elem_of_list_In, filter_In in Hin as [Hin _]. apply Hx. by apply elem_of_list_In.
Qed.
Lemma names_nodup l : one_per_name l -> NoDup l.
Proof. intros [H _]. by apply (NoDup_fmap_1 doc_id). Qed.
Lemma names_inj l d1 d2 : one_per_name l -> In d1 l -> In d2 l -> doc_id d1 = doc_id d2 -> d1 = d2.
Proof.
  intros [NO _]. induction l as [|d l IH]; [done|]. cbn [map] in NO. apply NoDup_cons in NO as [Hn NO]. intros [->|H1] [->|H2] E; try done.
  - exfalso. apply Hn. apply elem_of_list_In, in_map_iff. by exists d2.
  - exfalso. apply Hn. apply elem_of_list_In, in_map_iff. by exists d1.
  - by apply IH.
Qed.
