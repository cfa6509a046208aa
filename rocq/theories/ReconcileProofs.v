(** Proofs about Reconcile (C18). *)
From Verif Require Import JsonModel ObjModel ZSetModel OpsModel ExecModel PipelineModel ZSetSpec OpsSpec GatherSpec ExecSpec PipelineSpec.
From Verif Require Import JsonProofs ZSetProofs ZSetProofs2.

(** ** Keys *)
Lemma split_app a b : has_slash a = false -> split_slash (a +:+ "/" +:+ b) = Some (a, b).
Proof.
  unfold has_slash. induction a as [|c a IH]; intros H.
  - change ("" +:+ "/" +:+ b) with (String "/" b). simpl. done.
  - change (String c a +:+ "/" +:+ b) with (String c (a +:+ "/" +:+ b)). cbn [split_slash] in *.
    destruct (decide (c = "/"%char)) as [->|Hc]; [done|].
    rewrite IH; [done|]. by destruct (split_slash a) as [[? ?]|].
Qed.
Definition nsn (i : oname) : string := i.1 +:+ "/" +:+ i.2.
Lemma nsn_inj i j : plain i -> plain j -> nsn i = nsn j -> i = j.
Proof.
  intros [H1 _] [H2 _] E. destruct i as [a b], j as [c d]. unfold nsn in E. simpl in *.
  pose proof (split_app a b H1) as E1. rewrite E in E1. rewrite split_app in E1 by done. by injection E1 as -> ->.
Qed.
Lemma skey_inj i j : plain i -> plain j -> skey i.1 i.2 = skey j.1 j.2 -> i = j.
Proof.
  intros [H1 H2] [H3 H4] E. destruct i as [a b], j as [c d]. unfold skey in E. simpl in *.
  destruct (decide (a = "")) as [->|Ha], (decide (c = "")) as [->|Hc].
  - by subst.
  - subst. unfold has_slash in H2. by rewrite split_app in H2 by done.
  - subst. unfold has_slash in H4. by rewrite split_app in H4 by done.
  - pose proof (split_app a b H1) as E1. rewrite E in E1. rewrite split_app in E1 by done. by injection E1 as -> ->.
Qed.
Lemma nsname_nsn m : nsname m = nsn (obj_id m). Proof. done. Qed.
Lemma store_key_skey m : store_key m = skey (obj_id m).1 (obj_id m).2. Proof. done. Qed.

(** ** Grouping *)
Definition touched (i : oname) (ds : list delta) : Prop := exists d, In d ds /\ obj_id (d_obj d) = i.
Definition ops_of (tgt : store) (i : oname) (ds : list delta) : keyops :=
  KeyOps (adds_of i ds) (dels_of i ds) (bool_decide (is_Some (held tgt i))).
Record grouped (tgt : store) (ds : list delta) (gs : gmap string keyops) : Prop := {
  gr_in : forall i, plain i -> touched i ds -> gs !! nsn i = Some (ops_of tgt i ds);
  gr_out : forall k x, gs !! k = Some x -> exists i, plain i /\ k = nsn i /\ touched i ds }.

Lemma adds_of_app i ds ds' : adds_of i (ds ++ ds') = adds_of i ds ++ adds_of i ds'.
Proof. unfold adds_of. by rewrite List.filter_app, map_app. Qed.
Lemma dels_of_app i ds ds' : dels_of i (ds ++ ds') = dels_of i ds ++ dels_of i ds'.
Proof. unfold dels_of. by rewrite List.filter_app, map_app. Qed.
Lemma untouched_ops i ds : ~ touched i ds -> adds_of i ds = [] /\ dels_of i ds = [].
Proof.
  intros H. unfold adds_of, dels_of.
  assert (E : forall t, List.filter (fun d => bool_decide (d_type d = t /\ obj_id (d_obj d) = i)) ds = []).
  { intros t. induction ds as [|d ds IH]; [done|]. simpl. rewrite bool_decide_eq_false_2.
    - apply IH. intros (d' & H1 & H2). apply H. exists d'. split; [by right|done].
    - intros [_ E]. apply H. exists d. split; [by left|done]. }
  by rewrite !E.
Qed.
Lemma touched_dec i ds : touched i ds \/ ~ touched i ds.
Proof.
  induction ds as [|d ds IH]; [right; intros (d & [] & _)|].
  destruct (decide (obj_id (d_obj d) = i)) as [E|E]; [left; exists d; split; [by left|done]|].
  destruct IH as [(d' & H1 & H2)|H]; [left; exists d'; split; [by right|done]|].
  right. intros (d' & [->|H1] & H2); [done|]. apply H. by exists d'.
Qed.
Lemma touched_app i ds ds' : touched i (ds ++ ds') <-> touched i ds \/ touched i ds'.
Proof. unfold touched. setoid_rewrite in_app_iff. naive_solver. Qed.

Lemma get_held tgt m : (if store_get tgt m then true else false) = bool_decide (is_Some (held tgt (obj_id m))).
Proof.
  unfold store_get, held. rewrite <- store_key_skey. by destruct (tgt !! store_key m).
Qed.

Lemma group_step_ok tgt ds gs d : grouped tgt ds gs -> Forall raw_delta ds -> raw_delta d ->
  exists gs', group_step tgt gs d = Some gs' /\ grouped tgt (ds ++ [d]) gs'.
Proof.
  intros [G1 G2] Hds [Ht Hp]. set (i := obj_id (d_obj d)) in *.
  assert (E : default (KeyOps [] [] (if store_get tgt (d_obj d) then true else false)) (gs !! nsn i) = ops_of tgt i ds).
  { destruct (touched_dec i ds) as [T|T].
    - by rewrite (G1 i Hp T).
    - destruct (gs !! nsn i) as [x|] eqn:Ex.
      + destruct (G2 _ _ Ex) as (j & Hj & En & Tj). apply nsn_inj in En; [|done|done]. by subst j.
      + simpl. unfold ops_of. destruct (untouched_ops i ds T) as [-> ->]. by rewrite get_held. }
  assert (exists gs', group_step tgt gs d = Some gs' /\ gs' = <[nsn i := ops_of tgt i (ds ++ [d])]> gs) as (gs' & E1 & E2).
  { unfold group_step. rewrite nsname_nsn. fold i. rewrite E. destruct Ht as [Ht|Ht]; rewrite Ht; eexists; (split; [reflexivity|]).
    - f_equal. unfold ops_of. cbn [k_adds k_dels k_existed]. rewrite adds_of_app, dels_of_app. f_equal.
      + f_equal. unfold adds_of. cbn [List.filter]. rewrite bool_decide_eq_true_2 by done. done.
      + unfold dels_of at 3. cbn [List.filter]. rewrite bool_decide_eq_false_2 by (rewrite Ht; naive_solver). simpl. by rewrite app_nil_r.
    - f_equal. unfold ops_of. cbn [k_adds k_dels k_existed]. rewrite adds_of_app, dels_of_app. f_equal.
      + unfold adds_of at 3. cbn [List.filter]. rewrite bool_decide_eq_false_2 by (rewrite Ht; naive_solver). simpl. by rewrite app_nil_r.
      + f_equal. unfold dels_of. cbn [List.filter]. rewrite bool_decide_eq_true_2 by done. done. }
  exists gs'. split; [done|]. subst gs'. split.
  - intros j Hj T. destruct (decide (j = i)) as [->|Hne].
    + by rewrite lookup_insert.
    + rewrite lookup_insert_ne by (intros En; apply nsn_inj in En; naive_solver).
      apply touched_app in T as [T|(d' & [<-|[]] & Ei)]; [|done].
      rewrite (G1 j Hj T). unfold ops_of. f_equal. rewrite adds_of_app, dels_of_app.
      assert (N : ~ touched j [d]) by (intros (d' & [<-|[]] & Ei); done).
      destruct (untouched_ops j [d] N) as [-> ->]. by rewrite !app_nil_r.
  - intros k x. destruct (decide (k = nsn i)) as [->|Hne].
    + intros _. exists i. split_and!; [done|done|]. apply touched_app. right. exists d. split; [by left|done].
    + rewrite lookup_insert_ne by done. intros Ex. destruct (G2 _ _ Ex) as (j & Hj & En & Tj).
      exists j. split_and!; [done|done|]. apply touched_app. by left.
Qed.
Lemma group_deltas_ok tgt ds : Forall raw_delta ds -> exists gs, group_deltas tgt ∅ ds = Some gs /\ grouped tgt ds gs.
Proof.
  intros H. assert (L : forall ds1 ds0 gs, grouped tgt ds0 gs -> Forall raw_delta ds0 -> Forall raw_delta ds1 ->
     exists gs', group_deltas tgt gs ds1 = Some gs' /\ grouped tgt (ds0 ++ ds1) gs').
  { induction ds1 as [|d ds1 IH]; intros ds0 gs G H0 H1; [exists gs; by rewrite app_nil_r|].
    apply Forall_cons in H1 as [Hd H1]. destruct (group_step_ok tgt ds0 gs d G H0 Hd) as (gs1 & E & G1).
    simpl. rewrite E. simpl. destruct (IH (ds0 ++ [d]) gs1 G1) as (gs' & E' & G'); [|done|].
    - apply Forall_app. split; [done|]. by apply Forall_cons.
    - exists gs'. split; [done|]. by rewrite <- app_assoc in G'. }
  destruct (L ds [] ∅) as (gs & E & G); [|by apply Forall_nil|done|by exists gs].
  split; [intros i _ (d & [] & _)|]. intros k x. by rewrite lookup_empty.
Qed.

(** ** Actions *)
Definition action (x : keyops) : option delta :=
  match last (k_adds x), head (k_dels x) with
  | Some a, None => Some (Delta Upserted a)
  | None, Some d => if k_existed x then Some (Delta Deleted d) else None
  | Some a, Some _ => if k_existed x then Some (Delta Upserted a) else None
  | None, None => None
  end.
Definition do_action (tgt : store) (a : option delta) : store :=
  match a with
  | None => tgt
  | Some d => if decide (d_type d = Deleted) then store_delete tgt (d_obj d) else store_add tgt (d_obj d)
  end.
Lemma key_action_eq tgt out k x : key_action (tgt, out) (k, x) =
  (do_action tgt (action x), match action x with Some d => <[k := d]> out | None => out end).
Proof.
  unfold key_action, action. destruct (last (k_adds x)), (head (k_dels x)); try done; destruct (k_existed x); done.
Qed.
Lemma held_add tgt m i : plain i -> plain (obj_id m) ->
  held (store_add tgt m) i = if decide (i = obj_id m) then Some (obj_copy m) else held tgt i.
Proof.
  intros H1 H2. unfold held, store_add. rewrite store_key_skey. case_decide as E.
  - subst i. by rewrite lookup_insert.
  - rewrite lookup_insert_ne; [done|]. intros Es. apply skey_inj in Es; naive_solver.
Qed.
Lemma held_delete tgt m i : plain i -> plain (obj_id m) ->
  held (store_delete tgt m) i = if decide (i = obj_id m) then None else held tgt i.
Proof.
  intros H1 H2. unfold held, store_delete. rewrite store_key_skey. case_decide as E.
  - subst i. by rewrite lookup_delete.
  - rewrite lookup_delete_ne; [done|]. intros Es. apply skey_inj in Es; naive_solver.
Qed.
(** The effect of an action on what is held, apart from copying. *)
Definition effect (d : delta) : option jobj := match d_type d with Deleted => None | _ => Some (d_obj d) end.
Lemma held_do tgt d i : plain i -> plain (obj_id (d_obj d)) ->
  held (do_action tgt (Some d)) i = if decide (i = obj_id (d_obj d)) then obj_copy <$> effect d else held tgt i.
Proof.
  intros H1 H2. unfold do_action, effect. case_decide as E.
  - rewrite held_delete by done. by rewrite E.
  - rewrite held_add by done. case_decide; [|done]. by destruct (d_type d).
Qed.

(** The list of groups: distinct keys, objects that belong to them. *)
Definition group_ok (kx : string * keyops) : Prop :=
  exists i, plain i /\ kx.1 = nsn i /\ forall d, action kx.2 = Some d -> obj_id (d_obj d) = i.
Lemma actions_ok l : forall tgt out, NoDup (map fst l) -> Forall group_ok l ->
  let r := foldl key_action (tgt, out) l in
  (forall i, plain i -> ~ In (nsn i) (map fst l) -> held r.1 i = held tgt i /\ r.2 !! nsn i = out !! nsn i)
  /\ (forall i x, plain i -> In (nsn i, x) l ->
        held r.1 i = match action x with Some d => obj_copy <$> effect d | None => held tgt i end
        /\ r.2 !! nsn i = match action x with Some d => Some d | None => out !! nsn i end)
  /\ (forall k d, r.2 !! k = Some d -> out !! k = Some d \/ exists x, In (k, x) l /\ action x = Some d).
Proof.
  induction l as [|[k x] l IH]; intros tgt out ND F; [split_and!; simpl; naive_solver|].
  simpl in ND. apply NoDup_cons in ND as [Nin ND]. apply Forall_cons in F as [(i0 & Hi0 & Ek & Ha) F].
  rewrite elem_of_list_In in Nin. simpl in Ek, Ha. subst k.
  change (foldl key_action (tgt, out) ((nsn i0, x) :: l)) with (foldl key_action (key_action (tgt, out) (nsn i0, x)) l).
  rewrite key_action_eq.
  set (tgt1 := do_action tgt (action x)). set (out1 := match action x with Some d => <[nsn i0 := d]> out | None => out end).
  destruct (IH tgt1 out1 ND F) as (A & B & C). cbn zeta in *.
  assert (T1 : forall i, plain i -> i <> i0 -> held tgt1 i = held tgt i /\ out1 !! nsn i = out !! nsn i).
  { intros i Hi Hne. unfold tgt1, out1. destruct (action x) as [d|] eqn:Ea; [|done].
    rewrite held_do; [|done|by rewrite (Ha d)]. rewrite (Ha d) by done. rewrite decide_False by done.
    split; [done|]. rewrite lookup_insert_ne; [done|]. intros En. apply nsn_inj in En; naive_solver. }
  split_and!.
  - intros i Hi Hn. simpl in Hn.
    assert (i <> i0) by naive_solver. destruct (A i Hi) as [-> ->]; [naive_solver|]. by apply T1.
  - intros i y Hi [E|Hin].
    + injection E as En ->. apply nsn_inj in En; [|done|done]. subst i0.
      destruct (A i Hi Nin) as [-> ->]. unfold tgt1, out1. destruct (action y) as [d|] eqn:Ea; [|done].
      rewrite held_do; [|done|by rewrite (Ha d)]. rewrite (Ha d) by done. rewrite decide_True by done.
      split; [done|]. by rewrite lookup_insert.
    + destruct (B i y Hi Hin) as [-> ->].
      assert (i <> i0). { intros ->. apply Nin. apply in_map_iff. by exists (nsn i0, y). }
      destruct (T1 i Hi) as [-> ->]; [done|]. done.
  - intros k d Hk. destruct (C k d Hk) as [Hk'|(y & Hy & Ey)]; [|right; exists y; split; [by right|done]].
    unfold out1 in Hk'. destruct (action x) as [d'|] eqn:Ea; [|by left].
    destruct (decide (k = nsn i0)) as [->|Hne]; [|rewrite lookup_insert_ne in Hk' by done; by left].
    rewrite lookup_insert in Hk'. injection Hk' as ->. right. exists x. split; [by left|done].
Qed.

(** ** Applying operations *)
Lemma apply_ops_notin ds : forall T i, ~ In i (map (fun d => obj_id (d_obj d)) ds) -> apply_ops T ds i = T i.
Proof.
  induction ds as [|d ds IH]; intros T i H; [done|]. simpl in *. unfold apply_ops in *. simpl. rewrite IH by naive_solver.
  unfold apply_op. rewrite decide_False; naive_solver.
Qed.
Lemma apply_ops_in ds : forall T d, NoDup (map (fun d => obj_id (d_obj d)) ds) -> In d ds -> apply_ops T ds (obj_id (d_obj d)) = effect d.
Proof.
  induction ds as [|d' ds IH]; intros T d ND Hd; [done|]. simpl in ND. apply NoDup_cons in ND as [Nin ND].
  rewrite elem_of_list_In in Nin. unfold apply_ops in *. simpl. destruct Hd as [->|Hd].
  - pose proof (apply_ops_notin ds (apply_op T d) _ Nin) as E. unfold apply_ops in E. rewrite E.
    unfold apply_op, effect. by rewrite decide_True.
  - by apply IH.
Qed.

Lemma in_adds i ds m : In m (adds_of i ds) -> In (Delta Added m) ds /\ obj_id m = i.
Proof.
  unfold adds_of. intros H. apply in_map_iff in H as (d & <- & H). apply filter_In in H as [H1 H2].
  apply bool_decide_eq_true in H2 as [H2 H3]. split; [|done]. destruct d; simpl in *. by subst.
Qed.
Lemma in_dels i ds m : In m (dels_of i ds) -> In (Delta Deleted m) ds /\ obj_id m = i.
Proof.
  unfold dels_of. intros H. apply in_map_iff in H as (d & <- & H). apply filter_In in H as [H1 H2].
  apply bool_decide_eq_true in H2 as [H2 H3]. split; [|done]. destruct d; simpl in *. by subst.
Qed.
Lemma last_In {A} (l : list A) x : last l = Some x -> In x l.
Proof. intros H. apply elem_of_list_In. by apply last_Some_elem_of. Qed.
Lemma head_In {A} (l : list A) x : head l = Some x -> In x l.
Proof. destruct l; [done|]. intros [= ->]. by left. Qed.
Lemma action_id tgt i ds d : action (ops_of tgt i ds) = Some d ->
  obj_id (d_obj d) = i /\ (d_type d = Upserted /\ In (Delta Added (d_obj d)) ds \/ d_type d = Deleted /\ In (Delta Deleted (d_obj d)) ds /\ is_Some (held tgt i)).
Proof.
  unfold action, ops_of. cbn [k_adds k_dels k_existed].
  destruct (last (adds_of i ds)) as [a|] eqn:Ea, (head (dels_of i ds)) as [e|] eqn:Ed; try done.
  - case_bool_decide; [|done]. intros [= <-]. apply last_In, in_adds in Ea as [Ha Hi]. simpl. auto.
  - intros [= <-]. apply last_In, in_adds in Ea as [Ha Hi]. simpl. auto.
  - case_bool_decide; [|done]. intros [= <-]. apply head_In, in_dels in Ed as [Ha Hi]. simpl. auto.
Qed.

Lemma filter_perm {A} (f : A -> bool) l l' : Permutation l l' -> Permutation (List.filter f l) (List.filter f l').
Proof.
  induction 1 as [|x l l' H IH|x y l|l1 l2 l3 H1 IH1 H2 IH2]; simpl; [done| | |by rewrite IH1].
  - destruct (f x); by rewrite IH.
  - destruct (f x), (f y); try done. apply perm_swap.
Qed.

(** ** Reconcile *)
Section rec.
Context {FF : FloatFmt}.
Variable P : jobj -> bool.
#[local] Hint Extern 0 Docs => exact (json_docs_on P) : typeclass_instances.

Lemma reconcile_ok o tgt ds : order_ok o -> Forall raw_delta ds ->
  exists tgt' out, reconcile P o tgt ds = (tgt', Some out)
  /\ NoDup (map (fun d => obj_id (d_obj d)) out)
  /\ (exists dels ups, out = dels ++ ups /\ Forall (fun d => d_type d = Deleted) dels /\ Forall (fun d => d_type d = Upserted) ups)
  /\ (forall i d, plain i -> In d out /\ obj_id (d_obj d) = i <-> touched i ds /\ action (ops_of tgt i ds) = Some d)
  /\ (forall d, In d out -> plain (obj_id (d_obj d)))
  /\ (forall d, In d out -> held tgt' (obj_id (d_obj d)) = obj_copy <$> effect d)
  /\ (forall i, plain i -> ~ In i (map (fun d => obj_id (d_obj d)) out) -> held tgt' i = held tgt i).
Proof.
  intros Ho Hds. destruct (group_deltas_ok tgt ds Hds) as (gs & Eg & [G1 G2]).
  set (l := o keyops [0%nat] gs).
  assert (Pl : Permutation l (map_to_list gs)) by apply Ho.
  assert (NDl : NoDup (map fst l)). { rewrite Pl. apply NoDup_fst_map_to_list. }
  assert (In_l : forall (k : string) x, In (k, x) l <-> gs !! k = Some x).
  { intros k x. rewrite <- elem_of_list_In, Pl. apply elem_of_map_to_list. }
  assert (Fl : Forall group_ok l).
  { apply List.Forall_forall. intros [k x] Hk. apply In_l in Hk. destruct (G2 _ _ Hk) as (i & Hi & -> & Ti).
    exists i. split_and!; [done|done|]. simpl. intros d. rewrite (G1 i Hi Ti) in Hk. injection Hk as <-.
    intros Ha. by apply action_id in Ha as [? _]. }
  unfold reconcile. rewrite Eg. fold l.
  destruct (actions_ok l tgt ∅ NDl Fl) as (A & B & C). cbn zeta in *.
  destruct (foldl key_action (tgt, ∅) l) as [tgt' out] eqn:Ef. simpl in A, B, C.
  set (res := List.filter (is_type Deleted) (map snd (o delta [1%nat] out)) ++ List.filter (is_type Upserted) (map snd (o delta [2%nat] out))).
  assert (P1 : forall p, Permutation (o delta p out) (map_to_list out)) by (intros p; apply Ho).
  (* what is in the output map *)
  assert (Hout : forall k d, out !! k = Some d <-> exists i, plain i /\ k = nsn i /\ touched i ds /\ action (ops_of tgt i ds) = Some d).
  { intros k d. split.
    - intros Hk. destruct (C k d Hk) as [E|(x & Hx & Ex)]; [by rewrite lookup_empty in E|].
      apply In_l in Hx. destruct (G2 _ _ Hx) as (i & Hi & -> & Ti). rewrite (G1 i Hi Ti) in Hx. injection Hx as <-.
      by exists i.
    - intros (i & Hi & -> & Ti & Ha). destruct (B i (ops_of tgt i ds) Hi) as [_ ->]; [apply In_l; by apply G1|].
      by rewrite Ha. }
  assert (Hty : forall d i, action (ops_of tgt i ds) = Some d -> is_type Deleted d = true \/ is_type Upserted d = true).
  { intros d i Ha. apply action_id in Ha as [_ [[E _]|[E _]]]; unfold is_type; [right|left]; by rewrite decide_True. }
  assert (Inr : forall d, In d res <-> exists k, out !! k = Some d).
  { intros d. unfold res. rewrite in_app_iff, !filter_In.
    assert (E : forall p, In d (map snd (o delta p out)) <-> exists k, out !! k = Some d).
    { intros p. rewrite <- elem_of_list_In. rewrite P1. rewrite elem_of_list_In, in_map_iff. split.
      - intros ([k d'] & <- & H). apply elem_of_list_In, elem_of_map_to_list in H. by exists k.
      - intros (k & Hk). exists (k, d). split; [done|]. by apply elem_of_list_In, elem_of_map_to_list. }
    rewrite !E. split; [naive_solver|]. intros (k & Hk). pose proof Hk as Hk'. apply Hout in Hk' as (i & _ & _ & _ & Ha).
    apply Hty in Ha. naive_solver. }
  assert (Inr' : forall i d, plain i -> In d res /\ obj_id (d_obj d) = i <-> touched i ds /\ action (ops_of tgt i ds) = Some d).
  { intros i d Hi. rewrite Inr. split.
    - intros [(k & Hk) Hd]. apply Hout in Hk as (j & Hj & -> & Tj & Ha). apply action_id in Ha as Ha'. destruct Ha' as [E _].
      rewrite E in Hd. by subst j.
    - intros [Ti Ha]. split; [exists (nsn i); apply Hout; by exists i|]. by apply action_id in Ha as [? _]. }
  assert (NDr : NoDup (map (fun d => obj_id (d_obj d)) res)).
  { assert (Pr : Permutation res (map snd (map_to_list out))).
    { unfold res. rewrite (filter_perm (is_type Deleted) _ _ (Permutation_map snd (P1 [1%nat]))).
      rewrite (filter_perm (is_type Upserted) _ _ (Permutation_map snd (P1 [2%nat]))).
      assert (Fo : Forall (fun d => is_type Deleted d = negb (is_type Upserted d)) (map snd (map_to_list out))).
      { apply List.Forall_forall. intros d Hd. apply in_map_iff in Hd as ([k d'] & <- & Hd).
        apply elem_of_list_In, elem_of_map_to_list in Hd. apply Hout in Hd as (i & _ & _ & _ & Ha).
        apply action_id in Ha as [_ [[E _]|[E _]]]; unfold is_type; simpl; rewrite E; done. }
      clear -Fo. induction (map snd (map_to_list out)) as [|d l IH]; [done|]. apply Forall_cons in Fo as [Hd Fo].
      specialize (IH Fo). simpl. rewrite Hd. destruct (is_type Upserted d); simpl; [|by rewrite IH].
      rewrite <- Permutation_middle. by rewrite IH. }
    rewrite Pr, map_map.
    assert (Ho2 : forall k d, In (k, d) (map_to_list out) -> k = nsn (obj_id (d_obj d)) /\ plain (obj_id (d_obj d))).
    { intros k d Hd. apply elem_of_list_In, elem_of_map_to_list in Hd. apply Hout in Hd as (i & Hi & -> & _ & Ha).
      apply action_id in Ha as [-> _]. done. }
    pose proof (NoDup_fst_map_to_list out) as ND. revert ND Ho2. generalize (map_to_list out) as l0.
    clear. induction l0 as [|[k d] l0 IH]; intros ND Ho2; [constructor|]. simpl in *. apply NoDup_cons in ND as [N1 N2].
    apply NoDup_cons. split; [|apply IH; [done|intros ? ? ?; apply Ho2; by right]].
    intros Hin. apply N1. apply elem_of_list_In. apply elem_of_list_In in Hin. apply in_map_iff in Hin as ([k' d'] & E & Hin). simpl in *.
    destruct (Ho2 k d) as [-> H1]; [by left|]. destruct (Ho2 k' d') as [-> H2]; [by right|].
    apply in_map_iff. exists (nsn (obj_id (d_obj d')), d'). split; [|done]. simpl. by rewrite E. }
  exists tgt', res. split_and!; [done|done| |done| | |].
  - exists (List.filter (is_type Deleted) (map snd (o delta [1%nat] out))), (List.filter (is_type Upserted) (map snd (o delta [2%nat] out))).
    split; [done|]. split; apply List.Forall_forall; intros d Hd; apply filter_In in Hd as [_ Hd]; unfold is_type in Hd; by case_decide.
  - intros d Hd. apply Inr in Hd as (k & Hk). apply Hout in Hk as (i & Hi & _ & _ & Ha). by apply action_id in Ha as [-> _].
  - intros d Hd. set (i := obj_id (d_obj d)).
    assert (Hi : plain i).
    { apply Inr in Hd as (k & Hk). apply Hout in Hk as (j & Hj & _ & _ & Ha). unfold i. by apply action_id in Ha as [-> _]. }
    destruct (proj1 (Inr' i d Hi) (conj Hd eq_refl)) as [Ti Ha].
    destruct (B i (ops_of tgt i ds) Hi) as [-> _]; [apply In_l; by apply G1|]. by rewrite Ha.
  - intros i Hi Hin. destruct (touched_dec i ds) as [Ti|Ti].
    + destruct (B i (ops_of tgt i ds) Hi) as [-> _]; [apply In_l; by apply G1|].
      destruct (action (ops_of tgt i ds)) as [d|] eqn:Ha; [|done]. exfalso. apply Hin.
      destruct (proj2 (Inr' i d Hi) (conj Ti Ha)) as [Hd Ed]. apply in_map_iff. by exists d.
    + apply A; [done|]. intros Hn. apply in_map_iff in Hn as ([k x] & E & Hk). simpl in E. subst k.
      apply In_l in Hk. destruct (G2 _ _ Hk) as (j & Hj & En & Tj). apply nsn_inj in En; [|done|done]. by subst j.
Qed.
End rec.
