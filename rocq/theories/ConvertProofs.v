(** Events to Z-sets (C17). *)
From Verif Require Import JsonModel ObjModel ZSetModel OpsModel ExecModel PipelineModel ZSetSpec OpsSpec GatherSpec ExecSpec JsonSpec CleanSpec PipelineSpec.
From Verif Require Import JsonProofs JsonIdent CleanProofs ZSetProofs ZSetProofs2 ReconcileProofs ObjProofs.

Section convert.
Context {FF : FloatFmt}.
Variable P : jobj -> bool.
#[local] Hint Extern 0 Docs => exact (json_docs_on P) : typeclass_instances.

(** What the current objects satisfy. *)
Record world_ok (sources : list gvk) (w : world) : Prop := {
  wo_id : forall x m, w !! x = Some m -> x = source_id m /\ plain (obj_id m) /\ get_gvk m ∈ sources;
  wo_doc : forall x m, w !! x = Some m -> owf m /\ clean m = true /\ P m = true /\ stripped m = m }.

Lemma event_doc sources w d : event_ok P sources w d ->
  let m := stripped (d_obj d) in
  source_id (d_obj d) = source_id m /\ plain (obj_id m) /\ get_gvk m ∈ sources
  /\ owf m /\ clean m = true /\ P m = true /\ stripped m = m
  /\ get_kind (d_obj d) = gvk_kind (get_gvk m).
Proof.
  intros (W & C & HP & Hs & [gv Hgv] & Hp & _). cbv zeta. rewrite stripped_source, stripped_id, stripped_gvk.
  split_and!; try done; [by apply stripped_owf|by apply stripped_idem|].
  unfold get_gvk. rewrite Hgv. by destruct gv.
Qed.
Lemma world_step sources w d : world_ok sources w -> event_ok P sources w d -> world_ok sources (apply_event w d).
Proof.
  intros [H1 H2] E. pose proof (event_doc _ _ _ E) as (E1 & E2 & E3 & E4 & E5 & E6 & E7 & _).
  assert (I : world_ok sources (<[source_id (d_obj d) := stripped (d_obj d)]> w)).
  { split; intros x m; (destruct (decide (source_id (d_obj d) = x)) as [<-|]; [rewrite lookup_insert; intros [= <-]; done|rewrite lookup_insert_ne by done; first [apply H1|apply H2]]). }
  assert (D : world_ok sources (delete (source_id (d_obj d)) w)).
  { split; intros x m Hx; apply lookup_delete_Some in Hx as [? ?]; first [by apply H1|by eapply H2]. }
  unfold apply_event. by destruct (d_type d).
Qed.
Lemma world_empty sources : world_ok sources ∅.
Proof. split; by intros. Qed.

Lemma clean_key m : clean m = true -> P m = true -> exists k : string, key m = Some k.
Proof.
  intros C HP. destruct (enc_finite (JMap m)) as [k Hk]; [by apply jclean_finite|]. exists k. simpl. by rewrite HP.
Qed.

(** Counting the objects of one Kind. *)
Lemma occ_cons_j (k : string) m l : occ k (m :: l) = (if decide (key m = Some k) then 1 else 0) + occ k l.
Proof. done. Qed.
Lemma occ_perm (k : string) l l' : Permutation l l' -> occ k l = occ k l'.
Proof. induction 1 as [|x l l' _ IH|x y l|l1 l2 l3 _ IH1 _ IH2]; rewrite ?occ_cons_j; lia. Qed.
Definition here (x : gvk * oname) (kd : string) (m : jobj) (k : string) : Z :=
  if decide (gvk_kind x.1 = kd) then (if decide (key m = Some k) then 1 else 0) else 0.
Lemma of_kind_insert (kd : string) (w : world) (x : gvk * oname) (m : jobj) (k : string) : w !! x = None ->
  occ k (of_kind kd (<[x := m]> w)) = here x kd m k + occ k (of_kind kd w).
Proof.
  intros Hx. unfold of_kind.
  rewrite (occ_perm k _ (map snd (List.filter (fun e => bool_decide (gvk_kind e.1.1 = kd)) ((x, m) :: map_to_list w)))).
  - simpl. unfold here. case_decide as E; [rewrite bool_decide_eq_true_2 by done|rewrite bool_decide_eq_false_2 by done]; [done|lia].
  - apply Permutation_map, filter_perm. by apply map_to_list_insert.
Qed.
Lemma of_kind_delete (kd : string) (w : world) (x : gvk * oname) (m : jobj) (k : string) : w !! x = Some m ->
  occ k (of_kind kd (delete x w)) = occ k (of_kind kd w) - here x kd m k.
Proof.
  intros Hx. rewrite <-(insert_id w x m) at 2 by done. rewrite <-insert_delete_insert.
  rewrite of_kind_insert by apply lookup_delete. lia.
Qed.
Lemma of_kind_update (kd : string) (w : world) (x : gvk * oname) (m m' : jobj) (k : string) : w !! x = Some m ->
  occ k (of_kind kd (<[x := m']> w)) = occ k (of_kind kd w) - here x kd m k + here x kd m' k.
Proof.
  intros Hx. rewrite <-insert_delete_insert, of_kind_insert by apply lookup_delete. rewrite (of_kind_delete _ _ _ m) by done. lia.
Qed.

(** Source caches. *)
Lemma mirrors_touch src w g : mirrors src w -> mirrors (<[g := default ∅ (src !! g)]> src) w.
Proof.
  intros M g' k m. destruct (decide (g = g')) as [<-|]; [rewrite lookup_insert|rewrite lookup_insert_ne by done]; apply M.
Qed.
Lemma mirrors_get sources src w m : world_ok sources w -> mirrors src w -> plain (obj_id m) ->
  default ∅ (src !! get_gvk m) !! store_key m = w !! source_id m.
Proof.
  intros Ww M Hp. destruct (w !! source_id m) as [x|] eqn:E.
  - apply M. exists (obj_id m). split; [done|]. done.
  - destruct (default ∅ (src !! get_gvk m) !! store_key m) as [x|] eqn:Ex; [|done]. exfalso.
    apply M in Ex as (i & Hk & Hi). destruct (wo_id _ _ Ww _ _ Hi) as (Hid & Hpi & _).
    assert (i = obj_id m).
    { apply skey_inj; [|done|done]. injection Hid as _ ->. done. }
    subst i. unfold source_id in E. congruence.
Qed.
Lemma mirrors_put sources src w m : world_ok sources w -> mirrors src w -> plain (obj_id m) ->
  obj_copy m = m ->
  mirrors (<[get_gvk m := store_add (default ∅ (src !! get_gvk m)) m]> src) (<[source_id m := m]> w).
Proof.
  intros Ww M Hp Hc g k x. destruct (decide (get_gvk m = g)) as [<-|Hg].
  - rewrite lookup_insert. simpl. unfold store_add. rewrite Hc.
    destruct (decide (store_key m = k)) as [<-|Hk].
    + rewrite lookup_insert. split.
      * intros [= <-]. exists (obj_id m). split; [done|]. apply lookup_insert.
      * intros (i & Hk & Hi). destruct (decide (source_id m = (get_gvk m, i))) as [E|E].
        -- rewrite E, lookup_insert in Hi. congruence.
        -- rewrite lookup_insert_ne in Hi by done. exfalso. apply E. unfold source_id. f_equal.
           destruct (wo_id _ _ Ww _ _ Hi) as (Hid & Hpi & _). apply skey_inj; [done| |done]. injection Hid as _ ->. done.
    + rewrite lookup_insert_ne by done. rewrite (M (get_gvk m) k x). split; intros (i & Hk' & Hi); exists i; (split; [done|]).
      * rewrite lookup_insert_ne; [done|]. intros [= <-]. by apply Hk.
      * rewrite lookup_insert_ne in Hi; [done|]. intros [= <-]. by apply Hk.
  - rewrite lookup_insert_ne by done. rewrite (M g k x). split; intros (i & Hk' & Hi); exists i; (split; [done|]).
    + rewrite lookup_insert_ne; [done|]. by intros [= ? _].
    + rewrite lookup_insert_ne in Hi; [done|]. by intros [= ? _].
Qed.
Lemma mirrors_del sources src w m : world_ok sources w -> mirrors src w -> plain (obj_id m) ->
  mirrors (<[get_gvk m := store_delete (default ∅ (src !! get_gvk m)) m]> src) (delete (source_id m) w).
Proof.
  intros Ww M Hp g k x. destruct (decide (get_gvk m = g)) as [<-|Hg].
  - rewrite lookup_insert. simpl. unfold store_delete. rewrite lookup_delete_Some. rewrite (M (get_gvk m) k x).
    split.
    + intros [Hk (i & -> & Hi)]. exists i. split; [done|]. apply lookup_delete_Some. split; [|done].
      intros [= E]. subst i. by apply Hk.
    + intros (i & -> & [Hne Hi]%lookup_delete_Some). split; [|by exists i]. intros E.
      apply Hne. unfold source_id. f_equal. destruct (wo_id _ _ Ww _ _ Hi) as (Hid & Hpi & _).
      apply skey_inj; [done| |done]. injection Hid as _ ->. done.
  - rewrite lookup_insert_ne by done. rewrite (M g k x). split; intros (i & Hk' & Hi); exists i; (split; [done|]).
    + rewrite lookup_delete_ne; [done|]. by intros [= ? _].
    + by apply lookup_delete_Some in Hi as [_ Hi].
Qed.

Lemma zcount_empty (k : string) : zcount zempty k = 0.
Proof. unfold zcount, zempty. cbn [counts]. by rewrite lookup_empty. Qed.
Lemma zadd_one m c (k0 : string) : key m = Some k0 -> c <> 0 ->
  exists z, add_doc zempty m c = Some z /\ zwf z /\ forall k : string, zcount z k = if decide (key m = Some k) then c else 0.
Proof.
  intros Hk Hc. destruct (add_doc zempty m c) as [z|] eqn:E.
  - exists z. split; [done|]. destruct (add_doc_spec _ _ _ _ wf_empty E) as [W M]. split; [done|].
    intros k. rewrite M. rewrite zcount_empty. repeat case_decide; try lia; naive_solver lia.
  - apply add_doc_success in E as [_ E]. congruence.
Qed.

(** One event. *)
Lemma convert_step sources src w d : world_ok sources w -> mirrors src w -> event_ok P sources w d ->
  exists src' z, convert_delta P src d = (src', Some z) /\ zwf z /\ mirrors src' (apply_event w d)
    /\ forall kd (k : string), occ k (of_kind kd (apply_event w d))
         = occ k (of_kind kd w) + if decide (get_kind (d_obj d) = kd) then zcount z k else 0.
Proof.
  intros Ww M E. pose proof (event_doc _ _ _ E) as (E1 & E2 & E3 & E4 & E5 & E6 & E7 & E8).
  destruct E as (W0 & _ & _ & _ & _ & Hp & Ht).
  unfold convert_delta. fold (stripped (d_obj d)). set (m := stripped (d_obj d)) in *.
  rewrite copy_gvk. rewrite <-(stripped_gvk (d_obj d)). fold m.
  set (g := get_gvk m) in *. set (st := default ∅ (src !! g)).
  assert (Hold : store_get st (obj_copy (d_obj d)) = obj_copy <$> (w !! source_id m)).
  { unfold store_get. f_equal. rewrite <-(mirrors_get sources src w m Ww M E2). unfold st. f_equal.
    unfold store_key. change (skey (obj_id (obj_copy (d_obj d))).1 (obj_id (obj_copy (d_obj d))).2 = skey (obj_id m).1 (obj_id m).2).
    rewrite copy_id. unfold m. by rewrite stripped_id. }
  rewrite Hold. clear Hold.
  assert (Hcm : obj_copy m = m) by (by apply stripped_copy).
  destruct (clean_key m E5 E6) as [k0 Hk0].
  assert (Hfmap : forall x, w !! source_id m = Some x -> obj_copy x = x /\ remove_uid x = x /\ (exists kx : string, key x = Some kx) /\ source_id x = source_id m).
  { intros x Hx. destruct (wo_doc _ _ Ww _ _ Hx) as (O1 & O2 & O3 & O4). destruct (wo_id _ _ Ww _ _ Hx) as (O5 & _).
    rewrite <-O4. split_and!; [by apply stripped_copy|by apply stripped_remove| |].
    - rewrite O4. by apply clean_key.
    - by rewrite O4. }
  assert (Hs : source_id (d_obj d) = source_id m) by done.
  assert (Hadd : forall kd (k : string), here (source_id m) kd m k = if decide (get_kind (d_obj d) = kd) then (if decide (key m = Some k) then 1 else 0) else 0).
  { intros. unfold here. by rewrite E8. }
  assert (Hput : mirrors (<[g:=store_add st m]> (<[g:=st]> src)) (<[source_id m := m]> w)).
  { rewrite insert_insert. by apply (mirrors_put sources). }
  destruct (zadd_one m 1 k0 Hk0) as (z1 & Hz1 & Wz1 & Cz1); [done|].
  assert (Hfresh : w !! source_id m = None ->
    exists src' z, (<[g:=store_add st m]> (<[g:=st]> src), Some z1) = (src', Some z) /\ zwf z /\ mirrors src' (<[source_id (d_obj d) := m]> w)
    /\ forall kd (k : string), occ k (of_kind kd (<[source_id (d_obj d) := m]> w))
         = occ k (of_kind kd w) + if decide (get_kind (d_obj d) = kd) then zcount z k else 0).
  { intros Hw. eexists _, _. split_and!; [reflexivity|done|by rewrite Hs|]. intros kd k. rewrite Hs, of_kind_insert by done.
    rewrite Hadd. case_decide; [rewrite Cz1|]; lia. }
  assert (Hupd : exists src' z,
    match obj_copy <$> w !! source_id m with
    | Some m0 =>
        if obj_equal m (remove_uid (obj_copy m0)) then (<[g:=st]> src, Some zempty)
        else match z ← add_doc zempty m0 (-1); add_doc z m 1 with
             | Some z => (<[g:=store_add st m]> (<[g:=st]> src), Some z)
             | None => (<[g:=st]> src, None)
             end
    | None => match add_doc zempty m 1 with
              | Some z => (<[g:=store_add st m]> (<[g:=st]> src), Some z)
              | None => (<[g:=st]> src, None)
              end
    end = (src', Some z) /\ zwf z /\ mirrors src' (<[source_id (d_obj d) := m]> w)
    /\ forall kd (k : string), occ k (of_kind kd (<[source_id (d_obj d) := m]> w))
         = occ k (of_kind kd w) + if decide (get_kind (d_obj d) = kd) then zcount z k else 0).
  { destruct (w !! source_id m) as [x|] eqn:Ex; simpl.
    2:{ rewrite Hz1. by apply Hfresh. }
    destruct (Hfmap x eq_refl) as (Cx & Rx & (kx & Kx) & Sx). rewrite !Cx, Rx.
    destruct (obj_equal m x) eqn:Eq.
    - assert (m = x). { unfold obj_equal in Eq. apply go_equal_clean in Eq; [congruence|done]. } subst x.
      eexists _, _. split_and!; [reflexivity|apply wf_empty| |].
      + rewrite Hs, (insert_id w) by done. by apply mirrors_touch.
      + intros kd k. rewrite Hs, (insert_id w) by done. rewrite zcount_empty. repeat case_decide; try lia; naive_solver lia.
    - destruct (zadd_one x (-1) kx Kx) as (z2 & Hz2 & Wz2 & Cz2); [done|]. rewrite Hz2. simpl.
      destruct (add_doc z2 m 1) as [z3|] eqn:Hz3.
      2:{ apply add_doc_success in Hz3 as [_ Hz3]. congruence. }
      destruct (add_doc_spec _ _ _ _ Wz2 Hz3) as [Wz3 Cz3].
      eexists _, _. split_and!; [reflexivity|done|by rewrite Hs|]. intros kd k. rewrite Hs.
      rewrite (of_kind_update _ _ _ x) by done. rewrite Hadd. rewrite Cz3, Cz2.
      assert (here (source_id m) kd x k = if decide (get_kind (d_obj d) = kd) then (if decide (key x = Some k) then 1 else 0) else 0) as ->.
      { unfold here. by rewrite E8. }
      repeat case_decide; first [lia|exfalso; naive_solver]. }
  unfold apply_event. fold m. destruct (d_type d) eqn:Etype; [|by apply Hupd|by apply Hupd|by apply Hupd| |done].
  - rewrite Hz1. apply Hfresh. by rewrite Hs in Ht.
  - rewrite Hs in Ht. rewrite Ht. simpl. rewrite Hcm.
    destruct (zadd_one m (-1) k0 Hk0) as (z2 & Hz2 & Wz2 & Cz2); [done|]. rewrite Hz2.
    eexists _, _. split_and!; [reflexivity|done| |].
    + rewrite insert_insert, Hs. by apply (mirrors_del sources).
    + intros kd k. rewrite Hs. rewrite (of_kind_delete _ _ _ m) by done. rewrite Hadd, Cz2. repeat case_decide; first [lia|exfalso; naive_solver].
Qed.

Lemma convert_run_ok sources ds : forall src w, world_ok sources w -> mirrors src w -> history_ok P sources w ds ->
  exists src' zs, convert_run P src ds = (src', map Some zs) /\ Forall zwf zs
    /\ mirrors src' (foldl apply_event w ds) /\ world_ok sources (foldl apply_event w ds)
    /\ forall kd (k : string), occ k (of_kind kd (foldl apply_event w ds)) = occ k (of_kind kd w) + fed P kd ds zs k.
Proof.
  induction ds as [|d ds IH]; intros src w Ww M H.
  - exists src, []. split_and!; try done. intros. simpl. lia.
  - destruct H as [E H]. destruct (convert_step sources src w d Ww M E) as (src1 & z & E1 & Wz & M1 & C1).
    destruct (IH src1 (apply_event w d)) as (src2 & zs & E2 & Wzs & M2 & W2 & C2); [by eapply world_step|done|done|].
    exists src2, (z :: zs). simpl. rewrite E1, E2. split_and!; [done|by constructor|done|done|].
    intros kd k. rewrite C2, C1. cbn [fed]. by rewrite <-Z.add_assoc.
Qed.
Lemma mirrors_empty : mirrors ∅ ∅.
Proof. intros g k m. rewrite lookup_empty. simpl. rewrite lookup_empty. split; [done|]. intros (i & _ & Hi). by rewrite lookup_empty in Hi. Qed.

Theorem convert_history sources ds : history_ok P sources ∅ ds ->
  exists src zs, convert_run P ∅ ds = (src, map Some zs) /\ Forall zwf zs /\ mirrors src (after ds)
    /\ forall kd (k : string), fed P kd ds zs k = occ k (of_kind kd (after ds)).
Proof.
  intros H. destruct (convert_run_ok sources ds ∅ ∅ (world_empty _) mirrors_empty H) as (src & zs & E & W & M & _ & C).
  exists src, zs. split_and!; try done. intros kd k. specialize (C kd k). unfold after. rewrite C. unfold of_kind.
  rewrite map_to_list_empty. done.
Qed.
End convert.
