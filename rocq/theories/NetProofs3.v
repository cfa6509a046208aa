(** Proofs about controllers that work together: histories and changes of objects. *)
From Verif Require Import NetModel ZSetSpec OpsSpec GatherSpec ExecSpec JsonSpec CleanSpec PipelineSpec GroupSpec ValueSpec ViewSpec WriterSpec NetSpec.
From Verif Require Import JsonProofs CleanProofs ReconcileProofs ObjProofs ConvertProofs TargetProofs PipeProofs PipeProofs2 ViewProofs ViewProofs2.

Section hist.
Context {FF : FloatFmt}.

(** The events of one source *)
Definition on (x : gvk) (d : delta) : bool := bool_decide (get_gvk (d_obj d) = x).
Lemma after_on x ds : forall i, after (List.filter (on x) ds) !! (x, i) = after ds !! (x, i).
Proof.
  intros i. unfold after. rewrite (after_lookup ds), (after_lookup (List.filter (on x) ds)). f_equal. f_equal.
  induction ds as [|d ds IH]; [done|]. cbn. unfold on at 1, about at 2. destruct (bool_decide (get_gvk (d_obj d) = x)) eqn:E1; cbn; unfold about at 1.
  - destruct (bool_decide (source_id (d_obj d) = (x, i))); by rewrite IH.
  - apply bool_decide_eq_false in E1. rewrite bool_decide_eq_false_2; [done|]. unfold source_id. congruence.
Qed.
Lemma event_local x sources w w' d : x ∈ sources -> w !! source_id (d_obj d) = w' !! source_id (d_obj d) -> event_ok clean [x] w d -> event_ok clean sources w' d.
Proof.
  intros Hx E (A & B & C & D & F & G & H). apply elem_of_list_singleton in D. split_and!; try done; [by rewrite D|]. by rewrite <- E.
Qed.
Lemma history_snoc sources w ds d : history_ok clean sources w (ds ++ [d]) <-> history_ok clean sources w ds /\ event_ok clean sources (foldl apply_event w ds) d.
Proof. rewrite history_app. cbn. tauto. Qed.
Lemma history_merge sources ds : Forall (fun d => get_gvk (d_obj d) ∈ sources) ds ->
  (forall x, x ∈ sources -> history_ok clean [x] ∅ (List.filter (on x) ds)) -> history_ok clean sources ∅ ds.
Proof.
  induction ds as [|d ds IH] using rev_ind; intros K H; [done|]. apply Forall_app in K as [K Kd]. rewrite Forall_singleton in Kd.
  apply history_snoc. split.
  - apply IH; [done|]. intros x Hx. specialize (H x Hx). rewrite List.filter_app in H. by apply history_app in H as [H _].
  - specialize (H _ Kd). rewrite List.filter_app in H. cbn in H. unfold on in H at 2. rewrite bool_decide_eq_true_2 in H by done. apply history_snoc in H as [_ H].
    eapply event_local; [exact Kd| |exact H]. unfold source_id. apply after_on.
Qed.
Lemma after_snoc ds d x : after (ds ++ [d]) !! x = if decide (source_id (d_obj d) = x) then match d_type d with Deleted => None | _ => Some (stripped (d_obj d)) end else after ds !! x.
Proof.
  rewrite after_app. cbn. unfold apply_event. case_decide as E; [subst; by destruct (d_type d); rewrite ?lookup_insert, ?lookup_delete|].
  by destruct (d_type d); rewrite ?lookup_insert_ne, ?lookup_delete_ne.
Qed.

(** Objects as sources deliver them *)
Definition sound (x : gvk) (m : jobj) : Prop := owf m /\ clean (stripped m) = true /\ get_gvk m = x /\ plain (obj_id m) /\ is_Some (doc_id (stripped m)).
Definition fine (x : gvk) (s : store) : Prop := forall k m, s !! k = Some m -> sound x m /\ store_key m = k.
Lemma stripped_of_copy m : owf m -> stripped (obj_copy m) = stripped m.
Proof. intros W. unfold stripped. by rewrite copy_copy by (by apply owf_sorted). Qed.
Lemma copy_source m : source_id (obj_copy m) = source_id m.
Proof. unfold source_id. by rewrite copy_gvk, copy_id. Qed.
Lemma copy_parse m : is_Some (parse_gv (get_api_version (obj_copy m))).
Proof.
  destruct (copy_is m) as [_ H]. unfold get_api_version, nested_str. cbn [nested_get]. rewrite H. eexists. apply get_gvk_ok.
Qed.
Lemma sound_event x m w t : sound x m -> match t with Added => w !! source_id m = None | Deleted => w !! source_id m = Some (stripped m) | Sync => False | _ => True end ->
  event_ok clean [x] w (Delta t (obj_copy m)).
Proof.
  intros (W & C & G & P & _) H. unfold event_ok. cbn [d_obj d_type]. rewrite stripped_of_copy, copy_gvk, copy_id, copy_source by done.
  split_and!; try done; [by apply copy_owf|by apply elem_of_list_singleton|apply copy_parse].
Qed.

(** The objects that a watch starts with *)
Lemma start_events x l : forall w, (forall m, m ∈ l -> sound x m) -> NoDup (map obj_id l) -> (forall m, m ∈ l -> w !! (x, obj_id m) = None) ->
  history_ok clean [x] w (map (fun m => Delta Added (obj_copy m)) l)
  /\ forall i, foldl apply_event w (map (fun m => Delta Added (obj_copy m)) l) !! (x, i)
      = match List.find (fun m => bool_decide (obj_id m = i)) l with Some m => Some (stripped m) | None => w !! (x, i) end.
Proof.
  induction l as [|m l IH]; intros w S ND N; [done|]. cbn [map history_ok foldl List.find]. cbn [map] in ND. apply NoDup_cons in ND as [Nm ND].
  assert (Sm : sound x m) by (apply S; by left). assert (Hs := Sm). destruct Hs as (W & C & G & P & _).
  assert (Es : source_id m = (x, obj_id m)) by (unfold source_id; by rewrite G).
  destruct (IH (apply_event w (Delta Added (obj_copy m)))) as [H1 H2].
  - intros; apply S; by right.
  - done.
  - intros m' Hm'. unfold apply_event. cbn [d_type d_obj]. rewrite copy_source, Es. rewrite lookup_insert_ne; [apply N; by right|].
    intros E. apply Nm. rewrite (f_equal snd E : obj_id m = obj_id m'). apply elem_of_list_fmap. eauto.
  - split; [split; [|done]|].
    + apply sound_event; [done|]. rewrite Es. apply N. by left.
    + intros i. rewrite H2. unfold apply_event. cbn [d_type d_obj]. rewrite copy_source, Es, stripped_of_copy by done. case_bool_decide as E.
      * subst i. assert (List.find (fun m0 => bool_decide (obj_id m0 = obj_id m)) l = None) as ->; [|by rewrite lookup_insert].
        destruct (List.find _ l) as [m0|] eqn:Ef; [|done]. exfalso. apply find_some in Ef as [H3 H4]. apply bool_decide_eq_true in H4. apply Nm. change (obj_id m ∈ map obj_id l). rewrite <- H4. apply elem_of_list_In, in_map. done.
      * rewrite lookup_insert_ne by congruence. done.
Qed.

(** What a store holds, without UIDs *)
Definition cur (s : store) (i : oname) : option jobj := stripped <$> held_plain s i.
Lemma held_plain_in s i : plain i -> held_plain s i = s !! skey i.1 i.2.
Proof. intros H. unfold held_plain. by rewrite bool_decide_eq_true_2. Qed.
Lemma held_plain_out s i : ~ plain i -> held_plain s i = None.
Proof. intros H. unfold held_plain. by rewrite bool_decide_eq_false_2. Qed.
Lemma plain_dec i : plain i \/ ~ plain i.
Proof. destruct (decide (has_slash i.1 = false /\ has_slash i.2 = false)); [by left|by right]. Qed.
Lemma start_named x s l : fine x s -> Permutation l (map snd (map_to_list s)) -> named_history (map (fun m => Delta Added (obj_copy m)) l).
Proof.
  intros F HP. apply Forall_map, Forall_forall. intros m Hm. cbn [d_obj]. apply elem_of_list_In in Hm. apply (Permutation_in _ HP) in Hm. apply in_map_iff in Hm as ([k m'] & <- & Hm). apply elem_of_list_In, elem_of_map_to_list in Hm.
  destruct (F _ _ Hm) as [(W & _ & _ & _ & N) _]. cbn [snd]. by rewrite stripped_of_copy.
Qed.
Lemma store_start x s l : fine x s -> Permutation l (map snd (map_to_list s)) ->
  history_ok clean [x] ∅ (map (fun m => Delta Added (obj_copy m)) l)
  /\ forall i, after (map (fun m => Delta Added (obj_copy m)) l) !! (x, i) = cur s i.
Proof.
  intros F Pl. assert (In1 : forall m, m ∈ l <-> exists k, s !! k = Some m).
  { intros m. rewrite Pl, elem_of_list_fmap. split; [intros ([k m'] & -> & H); apply elem_of_map_to_list in H; eauto|]. intros [k Hk]. exists (k, m). by rewrite elem_of_map_to_list. }
  assert (So : forall m, m ∈ l -> sound x m /\ s !! skey (obj_id m).1 (obj_id m).2 = Some m).
  { intros m [k Hk]%In1. destruct (F k m Hk) as [Hs <-]. split; [done|]. by rewrite <- store_key_skey. }
  assert (ND : NoDup (map obj_id l)).
  { assert (N2 : NoDup l).
    { rewrite Pl. apply NoDup_fmap_2_strong; [|apply NoDup_map_to_list]. intros [k1 m1] [k2 m2] H1 H2 E. cbn in E. subst. apply elem_of_map_to_list in H1, H2.
      destruct (F _ _ H1) as [_ <-], (F _ _ H2) as [_ <-]. done. }
    apply NoDup_fmap_2_strong; [|done]. intros m1 m2 H1 H2 E. destruct (So _ H1) as [_ E1], (So _ H2) as [_ E2]. rewrite E in E1. congruence. }
  destruct (start_events x l ∅) as [H1 H2]; [intros; by apply So|done|intros; apply lookup_empty|]. split; [done|]. intros i. unfold after. rewrite H2.
  unfold cur. destruct (List.find _ l) as [m|] eqn:E.
  - apply find_some in E as [H3 H4]. apply bool_decide_eq_true in H4. subst i. apply elem_of_list_In in H3. destruct (So m H3) as [(_ & _ & _ & P & _) Es].
    by rewrite held_plain_in, Es by done.
  - rewrite lookup_empty. destruct (plain_dec i) as [P|P]; [|by rewrite held_plain_out]. rewrite held_plain_in by done.
    destruct (s !! skey i.1 i.2) as [m|] eqn:Es; [|done]. exfalso. assert (Hm : m ∈ l) by (apply In1; eauto). destruct (F _ _ Es) as [(_ & _ & _ & Pm & _) Ek].
    rewrite store_key_skey in Ek. apply skey_inj in Ek; [|done..]. apply elem_of_list_In, (find_none _ _ E), bool_decide_eq_false in Hm. by destruct Hm.
Qed.
End hist.
