(** Patches. *)
From Verif Require Import JsonModel ObjModel ValueModel JsonSpec ValueSpec JsonProofs.

(** *** Go equality *)
Lemma SFeqb_refl f : f <> S754_nan -> SFeqb f f = true.
Proof.
  unfold SFeqb. destruct f as [s|s| |s m e]; simpl; try done; [by destruct s|].
  intros _. destruct s; rewrite Z.compare_refl; simpl; by rewrite Pos.compare_cont_refl.
Qed.
Lemma go_refl v : nonan v -> go_equal v v = true.
Proof.
  induction v as [|b|n|f|s|l IH|m IH] using json_rect'; intros H; simpl; try done.
  - by destruct b.
  - apply Z.eqb_refl.
  - inversion H; subst. by apply SFeqb_refl.
  - apply String.eqb_refl.
  - inversion H as [| | | | |? Hl|]; subst. clear H. induction l as [|x l IHl]; [done|].
    apply Forall_cons in IH as [I1 I2]. apply Forall_cons in Hl as [L1 L2]. by rewrite I1, IHl.
  - inversion H as [| | | | | |? Hl]; subst. clear H. induction m as [|[k x] l IHl]; [done|].
    apply Forall_cons in IH as [I1 I2]. apply Forall_cons in Hl as [L1 L2]. simpl in I1, L1. by rewrite String.eqb_refl, I1, IHl.
Qed.
Lemma go_list l1 l2 : go_equal (JList l1) (JList l2) = true -> Forall2 (fun a b => go_equal a b = true) l1 l2.
Proof.
  revert l2. induction l1 as [|a l1 IH]; intros [|b l2]; try done.
  intros H. apply andb_true_iff in H as [H1 H2]. constructor; [done|]. by apply IH.
Qed.
Lemma go_map m1 : forall m2, go_equal (JMap m1) (JMap m2) = true ->
  forall k, match mget m1 k, mget m2 k with Some a, Some b => go_equal a b = true | None, None => True | _, _ => False end.
Proof.
  induction m1 as [|[j a] m1 IH]; intros [|[k b] m2]; try done.
  intros H x. apply andb_true_iff in H as [H1 H2]. apply andb_true_iff in H1 as [H0 H1]. apply String.eqb_eq in H0 as ->.
  simpl. case_decide; [done|]. by apply IH.
Qed.

(** *** Maps and lists of patches *)
Lemma entries_sorted f mo mm : forall acc, ksorted acc -> ksorted (patch_entries f mo mm acc).
Proof.
  induction mm as [|[k v] mm IH]; intros acc Ha; [done|]. cbn [patch_entries]. apply IH.
  destruct v; try (by apply ksorted_del); destruct (mget mo k); by apply ksorted_set.
Qed.
Definition entry (f : json -> json -> json) (mo mm : jobj) (k : string) (d : option json) : option json :=
  match mget mm k with
  | None => d
  | Some JNull => None
  | Some v => Some (match mget mo k with None => v | Some vo => f vo v end)
  end.
Lemma entries_get f mo mm : forall acc k, ksorted mm -> ksorted acc ->
  mget (patch_entries f mo mm acc) k = entry f mo mm k (mget acc k).
Proof.
  induction mm as [|[j v] mm IH]; intros acc k Hm Ha; [done|]. apply ksorted_cons in Hm as [Hm Hj].
  assert (Ha' : ksorted match v with JNull => mdel acc j | _ => match mget mo j with None => mset acc j v | Some vo => mset acc j (f vo v) end end).
  { destruct v; try (by apply ksorted_del); destruct (mget mo j); by apply ksorted_set. }
  cbn [patch_entries]. rewrite IH by done. unfold entry. cbn [mget]. destruct (decide (k = j)) as [->|N].
  - rewrite (mget_lt _ _ Hj). destruct v; [by apply mget_del_eq|..]; destruct (mget mo j); by rewrite mget_set_eq.
  - assert (E : mget match v with JNull => mdel acc j | _ => match mget mo j with None => mset acc j v | Some vo => mset acc j (f vo v) end end k = mget acc k).
    { destruct v; [apply mget_del_ne; congruence|..]; destruct (mget mo j); apply mget_set_ne; congruence. }
    rewrite E. done.
Qed.
Lemma items_get f lm : forall lo i, patch_items f lo lm !! i =
  match lm !! i with None => lo !! i | Some x => Some (match lo !! i with None => x | Some y => f y x end) end.
Proof.
  induction lm as [|x lm IH]; intros lo i; [by destruct lo|]. destruct lo as [|y lo].
  - cbn [patch_items]. by destruct ((x :: lm) !! i) eqn:E.
  - destruct i as [|i]; [done|]. cbn [patch_items]. apply (IH lo i).
Qed.

(** *** One step of [patch] *)
Lemma patch_eq o m : go_equal o m = true -> patch o m = m.
Proof. intros E. destruct m; simpl in *; by rewrite ?E. Qed.
Lemma patch_cases o m : patch o m = m
  \/ (exists lo lm, o = JList lo /\ m = JList lm /\ patch o m = JList (patch_items patch lo lm) /\ go_equal o m = false)
  \/ (exists mo mm, o = JMap mo /\ m = JMap mm /\ patch o m = JMap (patch_entries patch mo mm mo) /\ go_equal o m = false).
Proof.
  destruct (go_equal o m) eqn:E; [left; by apply patch_eq|].
  destruct m as [| | | | |lm|mm]; cbn [patch]; rewrite ?E; destruct o as [| | | | |lo|mo]; try (by left).
  - right; left. by exists lo, lm.
  - right; right. by exists mo, mm.
Qed.
Lemma patch_list lo lm : go_equal (JList lo) (JList lm) = false -> patch (JList lo) (JList lm) = JList (patch_items patch lo lm).
Proof. intros E. cbn [patch]. by rewrite E. Qed.
Lemma patch_map mo mm : go_equal (JMap mo) (JMap mm) = false -> patch (JMap mo) (JMap mm) = JMap (patch_entries patch mo mm mo).
Proof. intros E. cbn [patch]. by rewrite E. Qed.
Lemma patch_kept o m : go_equal o m = false -> match o, m with JList _, JList _ => False | JMap _, JMap _ => False | _, _ => True end -> patch o m = m.
Proof. intros E H. destruct m; cbn [patch]; rewrite ?E; by destruct o. Qed.

Lemma jwf_list l i v : jwf (JList l) -> l !! i = Some v -> jwf v.
Proof. intros H E. inversion H as [| | | | |? Hl|]; subst. by eapply Forall_lookup_1. Qed.
Lemma patch_wf m : forall o, jwf o -> jwf m -> jwf (patch o m).
Proof.
  induction m as [|b|n|f|s|lm IH|mm IH] using json_rect'; intros o Ho Hm;
    (match goal with |- context [patch o ?x] => destruct (patch_cases o x) as [->|[(lo & lm' & -> & E & -> & _)|(mo & mm' & -> & E & -> & _)]] end; [done|try done..]).
  - injection E as <-. constructor. apply Forall_lookup. intros i v. rewrite items_get. destruct (lm !! i) as [x|] eqn:Ex.
    + intros [= <-]. destruct (lo !! i) as [y|] eqn:Ey; [|exact (jwf_list _ _ _ Hm Ex)]. rewrite Forall_lookup in IH. exact (IH _ _ Ex _ (jwf_list _ _ _ Ho Ey) (jwf_list _ _ _ Hm Ex)).
    + intros Ey. exact (jwf_list _ _ _ Ho Ey).
  - injection E as <-. apply owf_iff. split; [apply entries_sorted; by apply owf_sorted|]. intros k v. rewrite entries_get by (by apply owf_sorted). unfold entry.
    destruct (mget mm k) as [w|] eqn:Ew; [|intros Ev; exact (owf_get _ _ _ Ho Ev)]. assert (Hw : jwf w) by exact (owf_get _ _ _ Hm Ew).
    intros Ev. assert (G : v = match mget mo k with None => w | Some vo => patch vo w end) by (destruct w; congruence). subst v.
    destruct (mget mo k) as [vo|] eqn:Eo; [|done]. rewrite Forall_forall in IH. apply (IH (k, w)); [by apply mget_in|exact (owf_get _ _ _ Ho Eo)|done].
Qed.

(** *** Idempotence *)
Lemma patch_equal_is m : forall o, jwf o -> jwf m -> go_equal (patch o m) m = true -> patch o m = m.
Proof.
  induction m as [|b|n|f|s|lm IH|mm IH] using json_rect'; intros o Ho Hm;
    (match goal with |- context [patch o ?x] => destruct (patch_cases o x) as [->|[(lo & lm' & -> & E & E1 & _)|(mo & mm' & -> & E & E1 & _)]] end; [done|try done..]); injection E as <-; rewrite E1; intros G.
  - f_equal. apply go_list in G. apply list_eq. intros i. destruct (lm !! i) as [x|] eqn:Ex.
    + destruct (Forall2_lookup_r _ _ _ _ _ G Ex) as (y & Ey & Gy). rewrite Ey. rewrite items_get, Ex in Ey. injection Ey as <-. f_equal.
      destruct (lo !! i) as [w|] eqn:Ew; [|done]. rewrite Forall_lookup in IH. eapply IH; eauto using jwf_list.
    + apply lookup_ge_None. rewrite (Forall2_length _ _ _ G). by apply lookup_ge_None.
  - f_equal. apply mget_ext; [apply entries_sorted; by apply owf_sorted|by apply owf_sorted|]. intros k.
    pose proof (go_map _ _ G k) as Gk. rewrite entries_get in Gk |- * by (by apply owf_sorted). unfold entry in Gk |- *.
    destruct (mget mm k) as [v|] eqn:Ev; [|by destruct (mget mo k)].
    assert (NV : v <> JNull) by (by intros ->).
    assert (Gk' : go_equal (match mget mo k with None => v | Some vo => patch vo v end) v = true) by (by destruct v).
    assert (E : match mget mo k with None => v | Some vo => patch vo v end = v).
    { destruct (mget mo k) as [vo|] eqn:Eo; [|done]. rewrite Forall_forall in IH. apply (IH (k, v)); [by apply mget_in|exact (owf_get _ _ _ Ho Eo)|exact (owf_get _ _ _ Hm Ev)|done]. }
    rewrite E. by destruct v.
Qed.
Lemma nonan_list l i v : nonan (JList l) -> l !! i = Some v -> nonan v.
Proof. intros H E. inversion H as [| | | | |? Hl|]; subst. by eapply Forall_lookup_1. Qed.
Lemma nonan_map_get m k v : nonan (JMap m) -> mget m k = Some v -> nonan v.
Proof. intros H E. inversion H as [| | | | | |? Hl]; subst. rewrite Forall_forall in Hl. by apply (Hl (k, v)), mget_in. Qed.
Lemma patch_idem m : forall o, jwf o -> jwf m -> nonan m -> patch (patch o m) m = patch o m.
Proof.
  induction m as [|b|n|f|s|lm IH|mm IH] using json_rect'; intros o Ho Hm Nm;
    (match goal with |- context [patch o ?x] => destruct (patch_cases o x) as [->|[(lo & lm' & -> & E & E1 & _)|(mo & mm' & -> & E & E1 & _)]] end; [by apply patch_eq, go_refl|try done..]); injection E as <-.
  - pose proof (patch_equal_is _ _ Ho Hm) as HE. rewrite E1 in HE |- *. destruct (go_equal (JList (patch_items patch lo lm)) (JList lm)) eqn:G.
    { rewrite HE by done. by apply patch_eq, go_refl. }
    rewrite patch_list by done. f_equal. apply list_eq. intros i. rewrite !items_get. destruct (lm !! i) as [x|] eqn:Ex; [|done]. f_equal.
    destruct (lo !! i) as [y|] eqn:Ey.
    + rewrite Forall_lookup in IH. eapply IH; eauto using jwf_list, nonan_list.
    + apply patch_eq, go_refl. by eapply nonan_list.
  - pose proof (patch_equal_is _ _ Ho Hm) as HE. rewrite E1 in HE |- *. destruct (go_equal (JMap (patch_entries patch mo mm mo)) (JMap mm)) eqn:G.
    { rewrite HE by done. by apply patch_eq, go_refl. }
    rewrite patch_map by done. f_equal.
    assert (So : ksorted (patch_entries patch mo mm mo)) by (apply entries_sorted; by apply owf_sorted).
    apply mget_ext; [by apply entries_sorted|done|]. intros k. rewrite !entries_get by (done || by apply owf_sorted). unfold entry.
    destruct (mget mm k) as [v|] eqn:Ev; [|done].
    rewrite entries_get by (by apply owf_sorted). unfold entry. rewrite Ev.
    assert (F : v <> JNull -> match mget mo k with None => v | Some vo => patch vo v end = patch (match mget mo k with None => v | Some vo => patch vo v end) v).
    { intros NV. destruct (mget mo k) as [vo|] eqn:Eo.
      - rewrite Forall_forall in IH. symmetry. apply (IH (k, v)); [by apply mget_in|exact (owf_get _ _ _ Ho Eo)|exact (owf_get _ _ _ Hm Ev)|by eapply nonan_map_get].
      - symmetry. apply patch_eq, go_refl. by eapply nonan_map_get. }
    destruct v; try done; by rewrite <-F.
Qed.

(** *** What a patched value holds *)
Lemma child_wf v p w : jwf v -> child v p = Some w -> jwf w.
Proof. destruct v, p; simpl; try done; intros H E; [by eapply jwf_list|by eapply owf_get]. Qed.
Lemma go_child a b p : go_equal a b = true ->
  match child a p, child b p with Some x, Some y => go_equal x y = true | None, None => True | _, _ => False end.
Proof.
  destruct p as [k|i], a, b; try done; intros H.
  - by apply go_map.
  - apply go_list in H. simpl. destruct (l !! i) eqn:E.
    + destruct (Forall2_lookup_l _ _ _ _ _ H E) as (y & -> & ?). done.
    + apply lookup_ge_None in E. rewrite (Forall2_length _ _ _ H) in E. apply lookup_ge_None in E as ->. done.
Qed.
(** The children of a patched value. *)
Lemma patch_child o m p v : jwf o -> jwf m -> child m p = Some v -> v <> JNull ->
  child (patch o m) p = Some v \/ exists vo, child o p = Some vo /\ child (patch o m) p = Some (patch vo v).
Proof.
  intros Ho Hm Hv Nv. destruct (patch_cases o m) as [->|[(lo & lm & -> & -> & -> & _)|(mo & mm & -> & -> & -> & _)]]; [by left|..].
  - destruct p as [k|i]; [done|]. simpl in *. rewrite items_get, Hv. destruct (lo !! i); eauto.
  - destruct p as [k|i]; [|done]. simpl in *. rewrite entries_get by (by apply owf_sorted). unfold entry. rewrite Hv.
    destruct (mget mo k); [right; exists j|left]; destruct v; try done; by split.
Qed.
Lemma patch_leaf ps : forall o m v, jwf o -> jwf m -> leaf v -> at_path m ps = Some v -> at_path (patch o m) ps = Some v.
Proof.
  induction ps as [|p ps IH]; intros o m v Ho Hm Lv E.
  - injection E as <-. simpl. f_equal. destruct (patch_cases o m) as [->|[(? & ? & ? & -> & _)|(? & ? & ? & -> & _)]]; done.
  - simpl in *. destruct (child m p) as [w|] eqn:Ew; [|done].
    assert (Nw : w <> JNull). { intros ->. destruct ps as [|q ps]; [injection E as <-; done|]. simpl in E. destruct q; done. }
    destruct (patch_child o m p w Ho Hm Ew Nw) as [->|(vo & Eo & ->)]; [done|]. apply IH; eauto using child_wf.
Qed.
Lemma same_untouched ps : forall o m, go_equal o m = true -> untouched m ps -> at_path o ps = None /\ at_path m ps = None.
Proof.
  induction ps as [|p ps IH]; intros o m E U; [done|]. simpl.
  pose proof (go_child o m p E) as G. simpl in U.
  destruct (child o p) as [x|] eqn:Ex, (child m p) as [y|] eqn:Ey; try done.
  apply IH; [done|]. destruct m, p; simpl in *; try done; by rewrite Ey in U.
Qed.
Lemma untouched_none ps : forall m, untouched m ps -> at_path m ps = None.
Proof.
  induction ps as [|p ps IH]; intros m U; [done|]. simpl in *. destruct m, p; try done; simpl.
  - destruct (l !! i); [by apply IH|done].
  - destruct (mget m k); [by apply IH|done].
Qed.
Lemma patch_local ps : forall o m, jwf o -> jwf m -> untouched m ps -> at_path (patch o m) ps = at_path o ps.
Proof.
  induction ps as [|p ps IH]; intros o m Ho Hm U; [done|].
  destruct (go_equal o m) eqn:G.
  { rewrite patch_eq by done. by destruct (same_untouched _ _ _ G U) as [-> ->]. }
  simpl in U. destruct m as [| | | | |lm|mm], p as [k|i]; try done; destruct o as [| | | | |lo|mo];
    try (rewrite patch_kept by done; simpl; destruct (lm !! i) as [v|] || destruct (mget mm k) as [v|]; [by apply untouched_none|done]).
  - rewrite patch_list by done. simpl. rewrite items_get. destruct (lm !! i) as [x|] eqn:Ex; [|done].
    destruct (lo !! i) as [y|] eqn:Ey; [|by apply untouched_none]. apply IH; eauto using jwf_list.
  - rewrite patch_map by done. simpl. rewrite entries_get by (by apply owf_sorted). unfold entry. destruct (mget mm k) as [x|] eqn:Ex; [|done].
    assert (Nx : x <> JNull) by (intros ->; by destruct ps).
    assert (F : at_path (match mget mo k with Some vo => patch vo x | None => x end) ps = match mget mo k with Some w => at_path w ps | None => None end).
    { destruct (mget mo k) as [y|] eqn:Ey; [|by apply untouched_none]. apply IH; eauto using owf_get. }
    destruct x; try done; by rewrite F.
Qed.

(** Null entries delete. *)
Lemma nonull_list l i v : nonull (JList l) -> l !! i = Some v -> nonull v.
Proof. intros H E. inversion H as [| | | |? Hl|]; subst. by eapply Forall_lookup_1. Qed.
Lemma nonull_get m k v : nonull (JMap m) -> mget m k = Some v -> nonull v.
Proof. intros H E. inversion H as [| | | | |? Hl]; subst. rewrite Forall_forall in Hl. by apply (Hl (k, v)), mget_in. Qed.
Lemma nonull_child v p w : nonull v -> child v p = Some w -> nonull w.
Proof. destruct v, p; simpl; try done; intros H E; [by eapply nonull_list|by eapply nonull_get]. Qed.
Lemma go_nonull ps : forall o m v, go_equal o m = true -> nonull o -> at_path m ps = Some v -> v <> JNull.
Proof.
  induction ps as [|p ps IH]; intros o m v G N E.
  - injection E as <-. intros ->. destruct o; try done. inversion N.
  - simpl in E. pose proof (go_child o m p G) as Gp. destruct (child m p) as [y|]; [|done]. destruct (child o p) as [x|] eqn:Ex; [|done].
    eapply IH; [exact Gp| |exact E]. by eapply nonull_child.
Qed.
Lemma patch_null ps : forall o m k mo, jwf o -> jwf m -> nonull o ->
  at_path o ps = Some (JMap mo) -> at_path m (ps ++ [Key k]) = Some JNull -> at_path (patch o m) (ps ++ [Key k]) = None.
Proof.
  induction ps as [|p ps IH]; intros o m k mo Ho Hm No Eo Em.
  - injection Eo as ->. simpl in *. destruct m as [| | | | |lm|mm]; try done. simpl in Em.
    destruct (go_equal (JMap mo) (JMap mm)) eqn:G.
    { exfalso. eapply (go_nonull [Key k]); [exact G|exact No| |reflexivity]. simpl. done. }
    rewrite patch_map by done. simpl. rewrite entries_get by (by apply owf_sorted). unfold entry. destruct (mget mm k) as [v|]; [|done]. by injection Em as ->.
  - destruct (go_equal o m) eqn:G. { exfalso. eapply (go_nonull ((p :: ps) ++ [Key k])); [exact G|exact No|exact Em|done]. }
    cbn [at_path app] in *. destruct (child o p) as [oo|] eqn:Eop; [|done]. destruct (child m p) as [mm'|] eqn:Emp; [|done].
    destruct m as [| | | | |lm|mm], p as [j|i]; try done; destruct o as [| | | | |lo|mo']; try done; cbn [child] in Eop, Emp.
    + rewrite patch_list by done. simpl. rewrite items_get, Emp, Eop. eapply IH; eauto using jwf_list, nonull_list.
    + rewrite patch_map by done. simpl. rewrite entries_get by (by apply owf_sorted). unfold entry. rewrite Emp, Eop.
      assert (F : at_path (patch oo mm') (ps ++ [Key k]) = None) by (eapply IH; eauto using owf_get, nonull_get).
      by destruct mm'.
Qed.
Lemma patch_object_total obj m : exists r, patch_object obj m = Some r.
Proof.
  unfold patch_object. destruct (patch_cases (JMap obj) (JMap m)) as [->|[(? & ? & ? & ? & _)|(mo & mm & ? & ? & -> & _)]]; eauto. done.
Qed.
Lemma patch_empty obj : patch_object obj [] = Some obj.
Proof. unfold patch_object. destruct obj as [|[k v] obj]; done. Qed.
