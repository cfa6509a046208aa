(** Stages that leave names alone yield at most one object for each name. *)
From Verif Require Import JsonModel ObjModel ZSetModel OpsModel ExecModel PipelineModel ValueModel PipeJsonModel StageModel.
From Verif Require Import ExprSpec ZSetSpec OpsSpec GatherSpec ExecSpec JsonSpec CleanSpec PipelineSpec StageSpec.
From Verif Require Import JsonProofs ReconcileProofs ObjProofs ConvertProofs TargetProofs PipeProofs PipeProofs2 PipeProofs3 ListProofs.

(** *** Numbers at the end of a name *)
Definition is_digit (c : ascii) : bool := byte_in 48 57 c.
Fixpoint all_digits (s : string) : bool := match s with EmptyString => true | String c s => is_digit c && all_digits s end.
Lemma pretty_go_digits n : forall s, all_digits s = true -> all_digits (pretty_N_go n s) = true.
Proof.
  induction (N.lt_wf_0 n) as [n _ IH]. intros s Hs. destruct (decide (n = 0%N)) as [->|Hn]; [by rewrite pretty_N_go_0|].
  rewrite pretty_N_go_step by lia. apply IH; [apply N.div_lt; lia|]. cbn [all_digits]. rewrite Hs, andb_true_r.
  assert (Hc : (n `mod` 10 < 10)%N) by (apply N.mod_lt; done).
  revert Hc. generalize (n `mod` 10)%N. intros d Hd.
  assert (d = 0 \/ d = 1 \/ d = 2 \/ d = 3 \/ d = 4 \/ d = 5 \/ d = 6 \/ d = 7 \/ d = 8 \/ d = 9)%N as Hx by lia.
  destruct_or?; subst; done.
Qed.
Lemma enc_int_digits (n : nat) : all_digits (enc_int (Z.of_nat n)) = true.
Proof.
  unfold enc_int. destruct (Z.of_nat n) as [|p|p] eqn:E; [done| |lia]. change (all_digits (pretty (N.pos p)) = true).
  unfold pretty, pretty_N. case_decide; [done|]. by apply pretty_go_digits.
Qed.
Lemma dash_split a b s t : all_digits s = true -> all_digits t = true -> a +:+ "-" +:+ s = b +:+ "-" +:+ t -> a = b /\ s = t.
Proof.
  intros Hs Ht. assert (G : forall x u, all_digits (x +:+ "-" +:+ u) = true -> False).
  { induction x as [|c x IH]; intros u H; [done|]. change (String c x +:+ "-" +:+ u) with (String c (x +:+ "-" +:+ u)) in H. cbn [all_digits] in H.
    apply andb_prop in H as [_ H]. by apply IH in H. }
  revert b. induction a as [|c a IH]; intros [|c' b] E.
  - injection E as ->. done.
  - change ("-" +:+ s = String c' (b +:+ "-" +:+ t)) in E. injection E as _ E. subst s. by apply G in Hs.
  - change (String c (a +:+ "-" +:+ s) = "-" +:+ t) in E. injection E as _ E. subst t. by apply G in Ht.
  - change (String c (a +:+ "-" +:+ s) = String c' (b +:+ "-" +:+ t)) in E. injection E as -> E. destruct (IH b E) as [-> ->]. done.
Qed.
Lemma has_slash_cons c s : has_slash (String c s) = bool_decide (c = ch 47) || has_slash s.
Proof.
  unfold has_slash. cbn [split_slash]. case_bool_decide as H; [by rewrite decide_True|]. rewrite decide_False by done. by destruct (split_slash s) as [[]|].
Qed.
Lemma digits_no_slash s : all_digits s = true -> has_slash s = false.
Proof.
  induction s as [|c s IH]; [done|]. cbn [all_digits]. intros [Hc Hs]%andb_prop. rewrite has_slash_cons, (IH Hs), orb_false_r.
  apply bool_decide_eq_false_2. intros ->. vm_compute in Hc. done.
Qed.
Lemma name_slash n i : has_slash n = false -> has_slash (n +:+ "-" +:+ enc_int (Z.of_nat i)) = false.
Proof.
  intros H. induction n as [|c n IH].
  - change (has_slash (String (ch 45) (enc_int (Z.of_nat i))) = false). rewrite has_slash_cons, digits_no_slash by apply enc_int_digits. done.
  - change (has_slash (String c (n +:+ "-" +:+ enc_int (Z.of_nat i))) = false). rewrite has_slash_cons in *. apply orb_false_elim in H as [-> H]. by rewrite IH.
Qed.
Lemma indexed_inj n m (i j : nat) : n +:+ "-" +:+ enc_int (Z.of_nat i) = m +:+ "-" +:+ enc_int (Z.of_nat j) -> n = m /\ i = j.
Proof.
  intros E. apply dash_split in E as [-> E]; [|apply enc_int_digits|apply enc_int_digits]. split; [done|].
  unfold enc_int in E. apply (inj (pretty (A := Z))) in E. lia.
Qed.

Section names.
Context {FF : FloatFmt} {EE : ExprEnv}.
Variable sortv : list json -> list json.

Lemma one_per_name_perm l l' : Permutation l l' -> one_per_name l -> one_per_name l'.
Proof. intros H [ND HN]. split; [by rewrite <-H|]. intros d Hd. apply HN. eapply Permutation_in; [symmetry; exact H|done]. Qed.
Lemma one_per_name_cons d l : one_per_name (d :: l) <-> (exists i, doc_id d = Some i /\ plain i) /\ ~ In (doc_id d) (map doc_id l) /\ one_per_name l.
Proof.
  unfold one_per_name. cbn [map]. rewrite NoDup_cons, elem_of_list_In. split.
  - intros [[H1 H2] H3]. split_and!; [apply H3; by left|done|done|]. intros x Hx. apply H3. by right.
  - intros (H1 & H2 & H3 & H4). split; [done|]. intros x [<-|Hx]; [done|by apply H4].
Qed.
Lemma selects_names e l l' : selects e l l' -> one_per_name l -> one_per_name l'.
Proof.
  intros [_ ->] H. induction l as [|d l IH]; [done|]. apply one_per_name_cons in H as (H1 & H2 & H3). cbn [List.filter]. specialize (IH H3).
  destruct (holds e d); [|done]. apply one_per_name_cons. split_and!; [done| |done]. intros Hin. apply H2. apply in_map_iff in Hin as (x & Hx & Hin).
  apply filter_In in Hin as [Hin _]. apply in_map_iff. by exists x.
Qed.
Lemma projects_names e l l' : (forall d d' i, doc_id d = Some i -> projected e d d' -> doc_id d' = Some i) -> projects e l l' -> one_per_name l -> one_per_name l'.
Proof.
  intros HK HP [ND HN]. assert (E : map doc_id l' = map doc_id l).
  { clear ND. induction HP as [|d d' l l' H F IH]; [done|]. cbn [map]. rewrite IH by (intros; apply HN; by right). destruct (HN d (or_introl eq_refl)) as (i & Hi & _). by rewrite Hi, (HK d d' i Hi H). }
  split; [by rewrite E|]. intros d' Hd'. assert (In (doc_id d') (map doc_id l)) as Hin by (rewrite <-E; by apply in_map).
  apply in_map_iff in Hin as (d & Hd & Hin). rewrite <-Hd. by apply HN.
Qed.
Lemma unwound_names e d l : name_paths -> (forall path d v d', literal_string e = Some path -> set_raw path v d = Some d' -> doc_id d' = doc_id d) ->
  unwound e d l -> forall i, doc_id d = Some i -> forall n d', l !! n = Some d' -> doc_id d' = Some (i.1, i.2 +:+ "-" +:+ enc_int (Z.of_nat n)).
Proof.
  intros [N1 N2] HK (path & vs & Hp & _ & Hl & H) i Hi n d' Hd'.
  assert (is_Some (vs !! n)) as [v Hv] by (apply lookup_lt_is_Some; rewrite <-Hl; by apply lookup_lt_Some in Hd').
  destruct (H n v d' Hv Hd') as (d1 & nm & H1 & H2 & H3). pose proof (HK path d v d1 Hp H1) as E. rewrite Hi in E.
  rewrite (N1 d1 i E) in H2. injection H2 as <-. eapply N2; [exact E| |exact H3]. unfold format_name. cbn [sprint_s]. by destruct i.2.
Qed.
Lemma unwinds_names e l l' : name_paths -> (forall path d v d', literal_string e = Some path -> set_raw path v d = Some d' -> doc_id d' = doc_id d) ->
  unwinds e l l' -> one_per_name l -> one_per_name l'.
Proof.
  intros HN HK (ls & F & ->) HO.
  assert (HI : forall x, In x (concat ls) -> exists d i n, In d l /\ doc_id d = Some i /\ plain i /\ doc_id x = Some (i.1, i.2 +:+ "-" +:+ enc_int (Z.of_nat n))).
  { destruct HO as [_ HO]. clear -HN HK F HO. induction F as [|d lx l ls H F IH]; intros x; [done|]. cbn [concat]. rewrite in_app_iff. intros [Hx|Hx].
    - apply elem_of_list_In, elem_of_list_lookup in Hx as [n Hn]. destruct (HO d) as (i & Hi & Hp); [by left|].
      exists d, i, n. split_and!; [by left|done|done|]. by eapply unwound_names.
    - destruct (IH (fun d Hd => HO d (or_intror Hd)) x Hx) as (d' & i & n & ? & ?). exists d', i, n. split; [by right|done]. }
  split.
  - clear HI. induction F as [|d lx l ls H F IH]; [apply NoDup_nil; done|]. apply one_per_name_cons in HO as ((i & Hi & Hp) & Hn & HO). specialize (IH HO).
    cbn [concat]. rewrite map_app. apply NoDup_app. split_and!; [| |done].
    + apply NoDup_alt. intros a b x Ha Hb. rewrite !list_lookup_fmap in Ha, Hb.
      destruct (lx !! a) as [xa|] eqn:Ea; [|done]. destruct (lx !! b) as [xb|] eqn:Eb; [|done]. simpl in Ha, Hb.
      rewrite (unwound_names e d lx HN HK H i Hi a xa Ea) in Ha. rewrite (unwound_names e d lx HN HK H i Hi b xb Eb) in Hb.
      rewrite <-Ha in Hb. injection Hb as Hb. by apply indexed_inj in Hb as [_ ->].
    + intros x Hx Hy. apply elem_of_list_In, in_map_iff in Hx as (xa & <- & Hx). apply elem_of_list_In, elem_of_list_lookup in Hx as [a Ha].
      apply elem_of_list_In, in_map_iff in Hy as (xb & Eb & Hy). rewrite (unwound_names e d lx HN HK H i Hi a xa Ha) in Eb.
      assert (exists d' i' b, In d' l /\ doc_id d' = Some i' /\ doc_id xb = Some (i'.1, i'.2 +:+ "-" +:+ enc_int (Z.of_nat b))) as (d' & i' & b & Hd' & Hi' & Hxb).
      { destruct HO as [_ HO]. clear -HN HK F HO Hy. induction F as [|d ly l ls H F IH]; [done|]. cbn [concat] in Hy. apply in_app_iff in Hy as [Hy|Hy].
        - apply elem_of_list_In, elem_of_list_lookup in Hy as [b Hb]. destruct (HO d) as (i & Hi & _); [by left|]. exists d, i, b. split_and!; [by left|done|]. by eapply unwound_names.
        - destruct (IH (fun d Hd => HO d (or_intror Hd)) Hy) as (d' & i & n & ? & ?). exists d', i, n. split; [by right|done]. }
      rewrite Hxb in Eb. injection Eb as E1 E2. apply indexed_inj in E2 as [E2 _]. apply Hn. apply in_map_iff. exists d'. split; [|done].
      rewrite Hi, Hi'. destruct i, i'. simpl in *. congruence.
  - intros x Hx. destruct (HI x Hx) as (d & i & n & _ & _ & [P1 P2] & Hid). eexists. split; [exact Hid|]. split; [done|]. simpl. by apply name_slash.
Qed.
Lemma gathers_names k v l l' : (forall path d w d', literal_string v = Some path -> set_raw path w d = Some d' -> doc_id d' = doc_id d) ->
  gathers sortv k v l l' -> one_per_name l -> one_per_name l'.
Proof.
  intros HK (groups & -> & ND & _ & H) [NO HO].
  assert (G : forall j r, In (j, r) groups -> exists d, In d l /\ gather_key k v d = Some j /\ doc_id r = doc_id d).
  { intros j r Hr. destruct (H j r Hr) as (path & d & vs & Hp & Hd & Hj & _ & Hs). exists d. split_and!; [done|done|]. by eapply HK. }
  assert (U : forall d1 d2, In d1 l -> In d2 l -> doc_id d1 = doc_id d2 -> d1 = d2).
  { clear -NO. induction l as [|d l IH]; [done|]. cbn [map] in NO. apply NoDup_cons in NO as [Hn NO]. intros d1 d2 [->|H1] [->|H2] E; try done.
    - exfalso. apply Hn. apply elem_of_list_In, in_map_iff. by exists d2.
    - exfalso. apply Hn. apply elem_of_list_In, in_map_iff. by exists d1.
    - by apply IH. }
  split.
  - clear H. induction groups as [|[j r] groups IH]; [apply NoDup_nil; done|]. cbn [map fst snd] in *. apply NoDup_cons in ND as [Hn ND].
    apply NoDup_cons. split; [|apply IH; [done|intros; apply G; by right]]. intros Hin.
    apply elem_of_list_In, in_map_iff in Hin as (r' & Er & Hr'). apply in_map_iff in Hr' as ([j' r2] & <- & Hr'). cbn [snd] in Er.
    destruct (G j r (or_introl eq_refl)) as (d & Hd & Hj & E1), (G j' r2 (or_intror Hr')) as (d' & Hd' & Hj' & E2).
    assert (d = d') as <- by (apply U; congruence). apply Hn. apply elem_of_list_In, in_map_iff. exists (j', r2). split; [simpl; congruence|done].
  - intros r Hr. apply in_map_iff in Hr as ([j r'] & <- & Hr). destruct (G j r' Hr) as (d & Hd & _ & E). cbn [snd]. rewrite E. by apply HO.
Qed.
Lemma stages_names p : name_paths -> Forall stage_keeps_names p -> forall l R, stages_mean sortv p l R -> one_per_name l -> one_per_name R.
Proof.
  intros HN HK l R H. induction H as [l R H|s p l l1 l2 R H Hs H' IH]; intros HO; [by eapply one_per_name_perm|].
  apply Forall_cons in HK as [Hk HK]. apply IH; [done|]. apply (one_per_name_perm _ _ H) in HO.
  unfold stage_keeps_names, stage_means in *. destruct (st_kind s); try done.
  - by eapply selects_names.
  - by eapply projects_names.
  - by eapply unwinds_names.
  - destruct Hs as (k & v & He & Hg). eapply gathers_names; [|exact Hg|done]. intros path d w d'. by apply (Hk k v).
Qed.
Lemma world_names source ds : history_ok clean [source] ∅ ds -> named_history ds -> one_per_name (of_kind (gvk_kind source) (after ds)).
Proof.
  intros HH HN. destruct (convert_run_ok clean [source] ds ∅ ∅ (world_empty clean _) mirrors_empty HH) as (src1 & zs1 & _ & _ & _ & Ww & _).
  assert (HL : forall x m, after ds !! x = Some m -> (exists i, doc_id m = Some i /\ plain i) /\ x = (source, default ("", "") (doc_id m))).
  { intros x m Hx. destruct (named_after ds x m HN Hx) as [i Hi]. destruct (wo_id _ _ _ Ww _ _ Hx) as (Ex & Hp & Hs). apply elem_of_list_singleton in Hs.
    pose proof (doc_obj_id m i Hi) as Eo. rewrite Eo in Hp. split; [by exists i|]. rewrite Ex, Hi. unfold source_id. simpl. by rewrite Hs, Eo. }
  unfold of_kind. set (L := map_to_list (after ds)).
  assert (HL' : forall e, In e L -> after ds !! e.1 = Some e.2) by (intros [x m] He; by apply elem_of_list_In, elem_of_map_to_list in He).
  assert (ND : NoDup (map fst L)) by apply NoDup_fst_map_to_list. clearbody L. split.
  - induction L as [|[x m] L IH]; [apply NoDup_nil; done|]. cbn [map fst] in ND. apply NoDup_cons in ND as [Hn ND].
    specialize (IH (fun e He => HL' e (or_intror He)) ND). cbn [List.filter]. case_bool_decide; [|done]. cbn [map snd]. apply NoDup_cons. split; [|done].
    intros Hin. apply Hn. apply elem_of_list_In, in_map_iff in Hin as (m' & Em & Hin). apply in_map_iff in Hin as ([x' m2] & <- & Hin). apply filter_In in Hin as [Hin _].
    apply elem_of_list_In, in_map_iff. exists (x', m2). split; [|done]. cbn [fst snd] in *.
    destruct (HL x m (HL' (x, m) (or_introl eq_refl))) as [_ ->], (HL x' m2 (HL' (x', m2) (or_intror Hin))) as [_ ->]. by rewrite Em.
  - intros d Hd. apply in_map_iff in Hd as ([x m] & <- & Hd). apply filter_In in Hd as [Hd _]. by apply (HL x m), (HL' (x, m)).
Qed.
Lemma c51_names source p ds pre post R : name_paths -> Forall stage_keeps_names p -> history_ok clean [source] ∅ ds -> named_history ds ->
  ds = pre ++ post -> yields sortv [source] p (after pre) R -> one_per_name R.
Proof.
  intros HN HK HH HD -> HY. apply history_app in HH as [HH _]. apply Forall_app in HD as [HD _].
  destruct p as [|[kd e] p].
  - destruct HY as (s & [= <-] & HY). eapply stages_names; [done|done|exact HY|]. by apply world_names.
  - destruct kd; try (destruct HY as (s & [= <-] & HY); eapply stages_names; [done|done|exact HY|]; by apply world_names).
    by apply Forall_cons in HK as [[] _].
Qed.

(** *** Projections that keep the metadata *)
Lemma dict_meta ctx w l : (forall kf, In kf l -> plain_key kf.1 /\ (kf.1 = "metadata"%string -> kf.2 ctx = Val (JMap w))) ->
  forall acc r, dict_loop l ctx acc = Val r -> (mget acc "metadata" = Some (JMap w) \/ exists kf, In kf l /\ kf.1 = "metadata"%string) -> mget r "metadata" = Some (JMap w).
Proof.
  induction l as [|[k f] l IH]; intros Hl acc r H Hm; cbn in H.
  - injection H as <-. destruct Hm as [Hm|(kf & [] & _)]. done.
  - destruct (f ctx) as [v| |] eqn:Ef; try done. cbn in H. destruct (set_path ctx k v acc) as [acc'| |] eqn:Es; try done. cbn in H.
    apply (IH (fun kf Hk => Hl kf (or_intror Hk)) acc' r H). destruct (Hl (k, f) (or_introl eq_refl)) as [Hp Hk]. cbn [fst snd] in *.
    unfold set_path in Es. destruct k as [|c k]; [done|]. cbn in Hp.
    destruct (match v with JStr s => get_path ctx s | _ => Val v end) as [v'| |] eqn:Ev; try done. cbn [rbind] in Es.
    rewrite (decide_False (P := String c k = "$."%string)) in Es by (intros [= -> _]; by apply Hp).
    rewrite (decide_False (P := c = dollar)) in Es by done. injection Es as <-.
    destruct (decide (String c k = "metadata"%string)) as [E|E].
    + left. rewrite (Hk E) in Ef. injection Ef as <-. injection Ev as <-. rewrite E. apply mget_set_eq.
    + destruct Hm as [Hm|(kf & [<-|Hin] & Hkf)]; [|done|right; by exists kf]. left. by rewrite mget_set_ne.
Qed.
Lemma c51_projection m : is_order iterate -> (forall d w, mget d "metadata" = Some (JMap w) -> get_raw "$.metadata" (JMap d) = Val (JMap w)) ->
  In ("metadata"%string, strE "$.metadata") m -> (forall k e, In (k, e) m -> plain_key k /\ (k = "metadata"%string -> e = strE "$.metadata")) ->
  stage_keeps_names (Stage KProject (dictE m)).
Proof.
  intros HO HM Hin Hm d d' i Hi Hp. cbn [st_expr] in Hp.
  assert (exists w, mget d "metadata" = Some (JMap w)) as [w Hw]. { unfold doc_id in Hi. destruct (mget d "metadata") as [[| | | | | |w]|]; try done. by exists w. }
  assert (HE : eval (strE "$.metadata") (Ctx (JMap d) JNull) = Val (JMap w)).
  { change (rbind (get_raw "$.metadata" (JMap d)) (fun v => Val (if is_str "@now" v then JStr now else v)) = Val (JMap w)). by rewrite (HM d w Hw). }
  assert (HD : forall r, eval (dictE m) (Ctx (JMap d) JNull) = Val r -> exists m', r = JMap m' /\ mget m' "metadata" = Some (JMap w)).
  { intros r. change (eval (dictE m) (Ctx (JMap d) JNull)) with (rbind (dict_loop (in_order (map (fun kv => (kv.1, eval kv.2)) m)) (Ctx (JMap d) JNull) []) (fun m => Val (JMap m))).
    destruct (dict_loop _ _ _) as [m'| |] eqn:El; try done. intros [= <-]. exists m'. split; [done|].
    assert (HF : forall kf, In kf (in_order (map (fun kv => (kv.1, eval kv.2)) m)) -> exists e, In (kf.1, e) m /\ kf.2 = eval e).
    { intros kf Hk. unfold in_order in Hk. apply elem_of_list_In, elem_of_list_omap in Hk as (k & _ & Hk). apply List.find_some in Hk as [Hk _].
      apply in_map_iff in Hk as ([k1 e1] & <- & Hk). by exists e1. }
    eapply dict_meta; [|exact El|right].
    - intros kf Hk. destruct (HF kf Hk) as (e & He & E). destruct (Hm _ _ He) as [H1 H2]. split; [done|]. intros E1. destruct kf as [kk ff]. cbn [fst snd] in *. subst ff. by rewrite (H2 E1).
    - assert (is_Some (List.find (fun kv => String.eqb kv.1 "metadata") (map (fun kv => (kv.1, eval kv.2)) m))) as [kf Hk].
      { destruct (List.find _ _) eqn:En; [by eexists|]. exfalso. pose proof (List.find_none _ _ En ("metadata"%string, eval (strE "$.metadata"))) as X. 
        apply (in_map (fun kv => (kv.1, eval kv.2))) in Hin. specialize (X Hin). done. }
      exists kf. pose proof (List.find_some _ _ Hk) as [_ E]. apply String.eqb_eq in E. split; [|done].
      apply elem_of_list_In, elem_of_list_omap. exists "metadata"%string. split; [|done]. rewrite (HO _), map_map. apply elem_of_list_In, in_map_iff. by exists ("metadata"%string, strE "$.metadata"). }
  assert (mget d' "metadata" = Some (JMap w)) as Hd'.
  { unfold projected, eval_doc in Hp. destruct (eval (dictE m) _) as [r| |] eqn:Er; [|by destruct Hp as [?|(? & ? & _)]..]. destruct (HD r eq_refl) as (m' & -> & Hm').
    destruct Hp as [[= <-]|(us & [=] & _)]. done. }
  unfold doc_id in *. rewrite Hd'. by rewrite Hw in Hi.
Qed.
End names.
