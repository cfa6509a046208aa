(** Whole pipelines (C19, C23, C24). *)
From Verif Require Import JsonModel ObjModel ZSetModel OpsModel ExecModel PipelineModel ZSetSpec OpsSpec GatherSpec ExecSpec JsonSpec CleanSpec PipelineSpec.
From Verif Require Import JsonProofs JsonIdent CleanProofs ZSetProofs ZSetProofs2 OpsProofs OptProofs IncrProofs IncrProofs2 ReconcileProofs ObjProofs ConvertProofs TargetProofs.

Lemma docs_zset {DD : Docs} l : forall z, zwf z -> (forall m, m ∈ l -> is_Some (key m)) ->
  exists a, zwf a /\ forall k, zcount a k = zcount z k + occ k l.
Proof.
  induction l as [|m l IHl]; intros z Wz Hl; [exists z; split; [done|]; intros; unfold occ; simpl; lia|].
  destruct (Hl m) as (km & Hm); [by left|]. destruct (add_doc z m 1) as [z1|] eqn:Ez.
  2:{ apply add_doc_success in Ez as [_ Ez]. congruence. }
  destruct (add_doc_spec _ _ _ _ Wz Ez) as [W1 C1]. destruct (IHl z1 W1) as (a & Wa & Ca); [intros; apply Hl; by right|].
  exists a. split; [done|]. intros k. rewrite Ca, C1. unfold occ. simpl. lia.
Qed.

Section pipe.
Context {FF : FloatFmt}.
Variable P : jobj -> bool.
#[local] Hint Extern 0 Docs => exact (json_docs_on P) : typeclass_instances.
Variable sortv : list json -> list json.
#[local] Notation xp := (@exec_process (json_docs_on P) sortv).
#[local] Notation xr := (@exec_run (json_docs_on P) sortv).
#[local] Notation xs := (@exec_scratch (json_docs_on P) sortv).

(** The inputs of one evaluation. *)
Definition step_inputs (sources : list gvk) (d : delta) (z : zset) : gmap string zset :=
  <[get_kind (d_obj d) := z]> (empty_inputs P sources).

(** The part of a run behind the executor. *)
Inductive tsteps (target : gvk) : store -> list zset -> list (list delta) -> store -> Prop :=
  | ts_nil tgt : tsteps target tgt [] [] tgt
  | ts_cons o1 o2 tgt y ys ds tgt1 out outs tgt2 :
      order_ok o1 -> order_ok o2 -> convert_zset P o1 target y = Some ds ->
      reconcile P o2 tgt ds = (tgt1, Some out) -> tsteps target tgt1 ys outs tgt2 ->
      tsteps target tgt (y :: ys) (out :: outs) tgt2.

Definition sub_exec (o : order) : order := fun V p => match p with n :: q => o V (n :: 0%nat :: q) | [] => o V [] end.
Lemma sub_exec_ok o : order_ok o -> order_ok (sub_exec o).
Proof. intros H V [|n q] m; apply H. Qed.
Lemma sub_exec_osub o n : osub (sub_exec o) n = osub (osub o n) 0.
Proof. done. Qed.

Lemma evaluate_inv o p d p1 out : evaluate P sortv o p d = (p1, Some out) ->
  exists src z g1 y ds tgt1,
    convert_delta P (p_src P p) d = (src, Some z)
    /\ xp (osub o 0) (p_graph P p) (step_inputs (p_sources P p) d z) = (g1, Some y)
    /\ convert_zset P (osub o 1) (p_target P p) y = Some ds
    /\ reconcile P (osub o 2) (p_tgt P p) ds = (tgt1, Some out)
    /\ p1 = Pipe P (p_sources P p) (p_target P p) g1 src tgt1 (p_snap P p).
Proof.
  unfold evaluate. destruct (convert_delta P (p_src P p) d) as [src [z|]] eqn:E1; [|done].
  cbv zeta. change (<[get_kind (d_obj d) := z]> (empty_inputs P (p_sources P (set_src P p src)))) with (step_inputs (p_sources P p) d z).
  destruct (xp (osub o 0) (p_graph P (set_src P p src)) (step_inputs (p_sources P p) d z)) as [g1 [y|]] eqn:E2; [|done].
  destruct (convert_zset P (osub o 1) _ y) as [ds|] eqn:E3; [|done].
  destruct (reconcile P (osub o 2) _ ds) as [tgt1 r] eqn:E4. intros [= <- ->].
  exists src, z, g1, y, ds, tgt1. split_and!; done.
Qed.

Lemma pipe_run_inv o : order_ok o -> forall ds n p p' outs,
  pipe_run P sortv o n p ds = (p', map Some outs) ->
  exists zs ys, convert_run P (p_src P p) ds = (p_src P p', map Some zs)
    /\ xr (sub_exec o) n (p_graph P p) (zip_with (step_inputs (p_sources P p)) ds zs) = (p_graph P p', map Some ys)
    /\ tsteps (p_target P p) (p_tgt P p) ys outs (p_tgt P p')
    /\ length zs = length ds /\ p_sources P p' = p_sources P p /\ p_target P p' = p_target P p.
Proof.
  intros Ho. induction ds as [|d ds IH]; intros n p p' outs E; simpl in E.
  - injection E as <- E. destruct outs; [|done]. exists [], []. split_and!; try done. constructor.
  - destruct (evaluate P sortv (osub o n) p d) as [p1 r] eqn:E1.
    destruct (pipe_run P sortv o (S n) p1 ds) as [p2 rs] eqn:E2. destruct outs as [|out outs]; [done|].
    injection E as -> -> ->.
    destruct (evaluate_inv _ _ _ _ _ E1) as (src & z & g1 & y & dl & tgt1 & C & X & V & R & ->).
    destruct (IH _ _ _ _ E2) as (zs & ys & C' & X' & T' & L & S1 & S2). cbn [p_src p_graph p_sources p_target p_tgt] in *.
    exists (z :: zs), (y :: ys). simpl. rewrite C, C'. rewrite sub_exec_osub, X, X'.
    split_and!; [done|done| |by rewrite L|done|done].
    eapply ts_cons; [apply osub_ok, osub_ok, Ho|apply osub_ok, osub_ok, Ho|exact V|exact R|exact T'].
Qed.

Lemma exec_run_prefix o ins1 : forall n g ins2 g' outs, xr o n g (ins1 ++ ins2) = (g', map Some outs) ->
  exists g1, xr o n g ins1 = (g1, map Some (take (length ins1) outs)).
Proof.
  induction ins1 as [|i ins1 IH]; intros n g ins2 g' outs E; simpl in *; [by eexists|].
  destruct (xp (osub o n) g i) as [g1 r]. destruct (xr o (S n) g1 (ins1 ++ ins2)) as [g2 rs] eqn:E2.
  destruct outs as [|y outs]; [done|]. injection E as -> -> ->. destruct (IH _ _ _ _ _ E2) as (g3 & ->). by eexists.
Qed.
Lemma exec_run_length o ins : forall n g g' rs, xr o n g ins = (g', rs) -> length rs = length ins.
Proof.
  induction ins as [|i ins IH]; intros n g g' rs E; simpl in E; [by injection E as _ <-|].
  destruct (xp (osub o n) g i) as [g1 r]. destruct (xr o (S n) g1 ins) as [g2 rs'] eqn:E2.
  injection E as _ <-. simpl. f_equal. by eapply IH.
Qed.

(** The Z-sets of the current objects. *)
Lemma inputs_exist kinds w : (forall kd (m : jobj), kd ∈ kinds -> m ∈ of_kind kd w -> is_Some (@key (json_docs_on P) m)) ->
  exists acc, inputs_of P w kinds acc.
Proof.
  induction kinds as [|kd kinds IH]; intros H; [exists ∅; intros kd' Hk; by apply elem_of_nil in Hk|].
  destruct IH as (acc & Ha); [intros; eapply H; [by right|done]|].
  destruct (docs_zset (DD := json_docs_on P) (of_kind kd w) zempty wf_empty) as (a & Wa & Ca); [intros m Hm; apply (H kd m); [by left|done]|].
  exists (<[kd := a]> acc). intros kd' [->|Hk]%elem_of_cons.
  - exists a. rewrite lookup_insert. split_and!; [done|done|]. intros k. rewrite Ca, zcount_empty. done.
  - destruct (decide (kd = kd')) as [<-|Hne]; [|rewrite lookup_insert_ne by done; by apply Ha].
    exists a. rewrite lookup_insert. split_and!; [done|done|]. intros k. rewrite Ca, zcount_empty. done.
Qed.

Lemma foldl_inputs (z : @zset (json_docs_on P)) sources nm : forall acc : gmap string (@zset (json_docs_on P)),
  foldl (fun m s => <[gvk_kind s := z]> m) acc sources !! nm = if decide (nm ∈ map gvk_kind sources) then Some z else acc !! nm.
Proof.
  induction sources as [|s sources IH]; intros acc; [by rewrite decide_False by apply not_elem_of_nil|].
  simpl. rewrite IH. destruct (decide (nm ∈ map gvk_kind sources)) as [H|H].
  - rewrite decide_True; [done|by right].
  - destruct (decide (gvk_kind s = nm)) as [<-|Hne].
    + rewrite lookup_insert. rewrite decide_True; [done|by left].
    + rewrite lookup_insert_ne by done. rewrite decide_False; [done|]. rewrite elem_of_cons. naive_solver.
Qed.
Lemma empty_inputs_lookup sources (nm : string) : (empty_inputs P sources : gmap string (@zset (json_docs_on P))) !! nm = if decide (nm ∈ map gvk_kind sources) then Some zempty else None.
Proof. unfold empty_inputs. by rewrite foldl_inputs, lookup_empty. Qed.
Lemma column_fed sources ds : forall zs kd (k : string), kd ∈ map gvk_kind sources ->
  total (column kd (zip_with (step_inputs sources) ds zs)) k = fed P kd ds zs k.
Proof.
  induction ds as [|d ds IH]; intros [|z zs] kd k Hk; try done. simpl. unfold total, column in *. simpl. rewrite IH by done. f_equal.
  unfold step_inputs. case_decide as E.
  - subst kd. by rewrite lookup_insert.
  - rewrite lookup_insert_ne by done. rewrite empty_inputs_lookup, decide_True by done. simpl. apply zcount_empty.
Qed.
Lemma steps_wf sources ds : forall zs, Forall zwf zs -> ins_wf (zip_with (step_inputs sources) ds zs).
Proof.
  induction ds as [|d ds IH]; intros [|z zs] Hz; try constructor; apply Forall_cons in Hz as [Hz Hzs].
  - intros nm x. unfold step_inputs. destruct (decide (get_kind (d_obj d) = nm)) as [<-|]; [rewrite lookup_insert; by intros [= <-]|].
    rewrite lookup_insert_ne by done. rewrite empty_inputs_lookup. case_decide; [intros [= <-]; apply wf_empty|done].
  - by apply IH.
Qed.

Lemma after_app ds1 ds2 : after (ds1 ++ ds2) = foldl apply_event (after ds1) ds2.
Proof. unfold after. by rewrite foldl_app. Qed.
Lemma history_app sources ds1 : forall w ds2, history_ok P sources w (ds1 ++ ds2) <->
  history_ok P sources w ds1 /\ history_ok P sources (foldl apply_event w ds1) ds2.
Proof. induction ds1 as [|d ds1 IH]; intros w ds2; simpl; [tauto|]. rewrite IH. tauto. Qed.
Lemma convert_run_prefix ds1 : forall src ds2 src' zs, convert_run P src (ds1 ++ ds2) = (src', map Some zs) ->
  exists src1, convert_run P src ds1 = (src1, map Some (take (length ds1) zs)).
Proof.
  induction ds1 as [|d ds1 IH]; intros src ds2 src' zs E; simpl in *; [by eexists|].
  destruct (convert_delta P src d) as [src1 r]. destruct (convert_run P src1 (ds1 ++ ds2)) as [src2 rs] eqn:E2.
  destruct zs as [|z zs]; [done|]. injection E as -> -> ->. destruct (IH _ _ _ _ E2) as (src3 & ->). by eexists.
Qed.

(** The results at every moment. *)
Lemma tsteps_ok target (Hex : exact P) (Hg : gvk_ok target) ys : forall tgt outs tgt' T B0,
  tsteps target tgt ys outs tgt' -> Forall zwf ys -> zwf B0 -> functional P B0 ->
  (forall n, (n <= length ys)%nat -> exists B : @zset (json_docs_on P), zwf B /\ functional P B /\ forall k : string, zcount B k = zcount B0 k + total (take n ys) k) ->
  shows P target B0 T -> agree tgt T ->
  forall B : @zset (json_docs_on P), zwf B -> functional P B -> (forall k : string, zcount B k = zcount B0 k + total ys k) ->
  shows P target B (apply_ops T (concat outs)) /\ agree tgt' (apply_ops T (concat outs)).
Proof.
  induction ys as [|y ys IH]; intros tgt outs tgt' T B0 H Wy W0 F0 HB S0 A0 B WB FB CB; inversion H; subst; clear H.
  - simpl. split; [|done]. intros i m. rewrite (S0 i m).
    assert (D : forall (k : string) d, docs B !! k = Some d <-> docs B0 !! k = Some d).
    { intros k d. specialize (CB k). unfold total in CB. simpl in CB. split; intros Hd.
      - destruct (zwf_doc P _ _ _ WB Hd) as [Hk Hn]. destruct (zwf_nz P B0 k W0) as [d' Hd']; [lia|].
        destruct (zwf_doc P _ _ _ W0 Hd') as [Hk' _]. by rewrite (proj1 Hex d d' k Hk Hk').
      - destruct (zwf_doc P _ _ _ W0 Hd) as [Hk Hn]. destruct (zwf_nz P B k WB) as [d' Hd']; [lia|].
        destruct (zwf_doc P _ _ _ WB Hd') as [Hk' _]. by rewrite (proj1 Hex d d' k Hk Hk'). }
    split; intros (k & d & H1 & H2); exists k, d; (split; [by apply D|done]).
  - apply Forall_cons in Wy as [Wy Wys].
    destruct (HB 1%nat) as (B1 & W1 & F1 & C1); [simpl; lia|]. unfold total in C1. simpl in C1.
    destruct (target_step P target B0 B1 y tgt T o1 o2 ds tgt1 out) as [S1 A1]; auto.
    { intros k. rewrite C1. lia. }
    assert (E : apply_ops T (concat (out :: outs0)) = apply_ops (apply_ops T out) (concat outs0)).
    { simpl. unfold apply_ops. by rewrite foldl_app. }
    rewrite E. eapply (IH tgt1 outs0 tgt' _ B1); eauto.
    + intros n Hn. destruct (HB (S n)) as (Bn & Wn & Fn & Cn); [simpl; lia|]. exists Bn. split_and!; [done|done|].
      intros k. rewrite Cn, C1. unfold total. simpl. lia.
    + intros k. rewrite CB, C1. unfold total. simpl. lia.
Qed.

(** The executor's outputs and the results from scratch, at every moment. *)
Lemma pipe_prefixes_full target sources join ps g p o ds p' outs :
  sources <> [] -> NoDup (map gvk_kind sources) ->
  forallb user_op ps = true -> Forall op_ok ps -> (forall jev, join = Some jev -> jev_ok jev) ->
  pipe_new P target sources join ps = Some p -> pipeline_graph (map gvk_kind sources) join ps = Some g ->
  order_ok o -> history_ok P sources ∅ ds ->
  pipe_run P sortv o 0 p ds = (p', map Some outs) ->
  exists zs ys, convert_run P ∅ ds = (p_src P p', map Some zs)
    /\ xr (sub_exec o) 0 (p_graph P p) (zip_with (step_inputs sources) ds zs) = (p_graph P p', map Some ys)
    /\ tsteps target ∅ ys outs (p_tgt P p') /\ length zs = length ds /\ length ys = length ds
    /\ forall n, (n <= length ds)%nat -> exists acc B, inputs_of P (after (take n ds)) (map gvk_kind sources) acc
     /\ xs g acc B /\ is_total B (take n ys) /\ Forall zwf (take n ys).
Proof.
  intros Hs ND Hu Hok Hj Hp Hgr Ho HH R. set (kinds := map gvk_kind sources) in *.
  unfold pipe_new in Hp. apply bind_Some in Hp as (g1 & Hg1 & [= <-]). fold kinds in Hg1.
  destruct (pipe_run_inv o Ho _ _ _ _ _ R) as (zs & ys & C & X & T & L & _). cbn [p_src p_graph p_sources p_target p_tgt] in *.
  assert (Hk : kinds <> []) by (by destruct sources).
  (* every prefix *)
  assert (HP : forall n, (n <= length ds)%nat -> exists acc B, inputs_of P (after (take n ds)) kinds acc
     /\ xs g acc B /\ is_total B (take n ys) /\ Forall zwf (take n ys)).
  { intros n Hn. rewrite <-(take_drop n ds) in HH. apply history_app in HH as [HH1 _].
    destruct (convert_run_ok P sources (take n ds) ∅ ∅ (world_empty P _) mirrors_empty HH1) as (src1 & zs1 & E1 & Wz1 & _ & Ww & F1).
    rewrite <-(take_drop n ds) in C. destruct (convert_run_prefix _ _ _ _ _ C) as (src1' & E1').
    rewrite E1 in E1'. injection E1' as _ E1'. rewrite take_length_le in E1' by done. apply (inj (map Some)) in E1'.
    assert (Hzip : zip_with (step_inputs sources) ds zs = zip_with (step_inputs sources) (take n ds) (take n zs) ++ zip_with (step_inputs sources) (drop n ds) (drop n zs)).
    { rewrite <-zip_with_app by (rewrite !take_length; lia). by rewrite !take_drop. }
    rewrite Hzip in X. destruct (exec_run_prefix _ _ _ _ _ _ _ X) as (g2 & X1).
    rewrite zip_with_length_l_eq in X1 by (rewrite !take_length; lia). rewrite take_length_le in X1 by done.
    rewrite <-E1' in X1.
    destruct (inputs_exist kinds (after (take n ds))) as (acc & Hacc).
    { intros kd m _ Hm. unfold of_kind in Hm. apply elem_of_list_In, in_map_iff in Hm as ([x m'] & <- & Hm).
      apply filter_In in Hm as [Hm _]. apply elem_of_list_In, elem_of_map_to_list in Hm.
      destruct (wo_doc _ _ _ Ww _ _ Hm) as (_ & Hc & HPm & _). destruct (clean_key P m' Hc HPm) as [k0 Hk0]. by exists k0. }
    destruct (@c13_core_wf (json_docs_on P) sortv kinds join ps g g1 (sub_exec o) (zip_with (step_inputs sources) (take n ds) zs1) (take n ys) g2 acc) as (B & HB & TB & Wy);
      auto using sub_exec_ok.
    { by apply steps_wf. }
    { intros kd Hkd. destruct (Hacc kd Hkd) as (a & Ea & Wa & Ca). exists a. split; [done|]. split; [done|].
      intros k. rewrite (column_fed sources) by done. rewrite Ca. unfold after. rewrite F1. unfold of_kind. by rewrite map_to_list_empty. }
    exists acc, B. done. }
  exists zs, ys. split; [done|]. split; [done|]. split; [done|]. split; [done|]. split; [|done].
  apply exec_run_length in X. rewrite map_length, zip_with_length_l_eq in X by done. done.
Qed.

Lemma pipe_prefixes target sources join ps g p o ds p' outs :
  sources <> [] -> NoDup (map gvk_kind sources) ->
  forallb user_op ps = true -> Forall op_ok ps -> (forall jev, join = Some jev -> jev_ok jev) ->
  pipe_new P target sources join ps = Some p -> pipeline_graph (map gvk_kind sources) join ps = Some g ->
  order_ok o -> history_ok P sources ∅ ds ->
  pipe_run P sortv o 0 p ds = (p', map Some outs) ->
  exists ys, tsteps target ∅ ys outs (p_tgt P p') /\ length ys = length ds
    /\ forall n, (n <= length ds)%nat -> exists acc B, inputs_of P (after (take n ds)) (map gvk_kind sources) acc
     /\ xs g acc B /\ is_total B (take n ys) /\ Forall zwf (take n ys).
Proof.
  intros Hs ND Hu Hok Hj Hp Hgr Ho HH R.
  destruct (pipe_prefixes_full target sources join ps g p o ds p' outs) as (zs & ys & _ & _ & T & _ & L & HP); auto. by exists ys.
Qed.

Lemma c19_core target sources join ps g p o ds p' outs :
  exact P -> gvk_ok target -> sources <> [] -> NoDup (map gvk_kind sources) ->
  forallb user_op ps = true -> Forall op_ok ps -> (forall jev, join = Some jev -> jev_ok jev) ->
  pipe_new P target sources join ps = Some p -> pipeline_graph (map gvk_kind sources) join ps = Some g ->
  order_ok o -> history_ok P sources ∅ ds ->
  pipe_run P sortv o 0 p ds = (p', map Some outs) ->
  (forall pre post acc B, ds = pre ++ post -> inputs_of P (after pre) (map gvk_kind sources) acc -> xs g acc B -> functional P B) ->
  exists acc B, inputs_of P (after ds) (map gvk_kind sources) acc /\ xs g acc B
    /\ shows P target B (apply_ops no_objects (concat outs))
    /\ agree (p_tgt P p') (apply_ops no_objects (concat outs)).
Proof.
  intros Hex Hg Hs ND Hu Hok Hj Hp Hgr Ho HH R HF.
  destruct (pipe_prefixes target sources join ps g p o ds p' outs) as (ys & T & Ly & HP); auto.
  destruct (HP (length ds)) as (acc & B & Ha & HB & TB & Wy); [done|]. rewrite firstn_all in Ha. rewrite <-Ly, firstn_all in TB, Wy.
  exists acc, B. split; [done|]. split; [done|].
  assert (E0 : forall k : string, docs (@zempty (json_docs_on P)) !! k = None) by (intros; apply lookup_empty).
  assert (F0 : functional P zempty). { split; [intros k d Hd|intros k1 k2 d1 d2 i Hd]; by rewrite E0 in Hd. }
  eapply (tsteps_ok target Hex Hg ys ∅ outs (p_tgt P p') no_objects zempty); auto using wf_empty.
  - intros n Hn. destruct (HP n) as (accn & Bn & Han & HBn & TBn & _); [lia|]. exists Bn. split_and!; [apply TBn| |].
    + eapply (HF (take n ds) (drop n ds)); [by rewrite take_drop|done|done].
    + intros k. rewrite zcount_empty. apply TBn.
  - intros i m. split; [done|]. intros (k & d & Hd & _). by rewrite E0 in Hd.
  - intros i _. unfold held. by rewrite lookup_empty.
  - apply TB.
  - eapply (HF ds []); [by rewrite app_nil_r|done|done].
  - intros k. rewrite zcount_empty. apply TB.
Qed.
End pipe.
