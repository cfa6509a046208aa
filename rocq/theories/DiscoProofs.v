(** Lemmas about discovery and the composite client. *)
From Verif Require Import DiscoModel DiscoSpec ViewSpec JsonProofs ObjProofs GroupProofs ViewProofs ViewProofs2.

Lemma trim_none suf s : has_suffix suf s = false -> trim_suffix suf s = s.
Proof. intros H. unfold trim_suffix. by rewrite H. Qed.

(** *** Registrations *)
Lemma drun_snoc l a : drun (l ++ [a]) = dstep (drun l) a.
Proof. unfold drun. by rewrite foldl_app. Qed.
Lemma kept_snoc x l a : kept x (l ++ [a]) <-> a = Register x \/ (kept x l /\ a <> Unregister x).
Proof.
  split.
  - intros (b & c & E & N). destruct c as [|z c' _] using rev_ind.
    + apply app_inj_tail in E as [-> ->]. by left.
    + rewrite app_comm_cons, app_assoc in E. apply app_inj_tail in E as [-> ->]. right. split.
      * exists b, c'. split; [done|]. intros H. apply N, in_or_app. by left.
      * intros ->. apply N, in_or_app. right. by left.
  - intros [->|[(b & c & -> & N) H]].
    + exists l, []. split; [done|]. by intros [].
    + exists b, (c ++ [a]). split; [by rewrite <- app_assoc|]. intros [?|[?|[]]]%in_app_or; [done|congruence].
Qed.
Lemma drun_lookup l x : drun l !! x = Some (described x) /\ offered x l \/ drun l !! x = None /\ ~ offered x l.
Proof.
  induction l as [|a l IH] using rev_ind.
  - right. split; [apply lookup_empty|]. intros [_ (b & c & E & _)]. by destruct b.
  - rewrite drun_snoc. unfold offered in *. rewrite kept_snoc. destruct a as [y|y]; cbn [dstep].
    + unfold register_view. destruct (is_object_kind y) eqn:V; [|destruct IH as [[E [I J]]|[E J]]; [left; split; [done|]; split; [done|]; right; split; [done|discriminate]|]].
      2:{ right. split; [done|]. intros [I [K|[K _]]]; [injection K as ->; congruence|by apply J]. }
      destruct (decide (y = x)) as [->|N].
      * left. destruct (drun l !! x) as [r|] eqn:E.
        -- destruct IH as [[E' _]|[E' _]]; [|done]. rewrite E, E'. split; [done|]. split; [done|by left].
        -- rewrite lookup_insert. split; [|split; [done|by left]]. f_equal. unfold described, resource_from_kind.
           unfold is_object_kind in V. apply andb_true_iff in V as [_ V]. by rewrite trim_none by by destruct (has_suffix _ _).
      * assert (H : match drun l !! y with Some _ => drun l | None => <[y := ApiResource (resource_from_kind (gvk_kind y)) (resource_from_kind (gvk_kind y)) true (gvk_kind y) (gvk_group y) (gvk_version y)
                       ["get"; "list"; "create"; "update"; "patch"; "delete"; "watch"]%string]> (drun l) end !! x = drun l !! x).
        { destruct (drun l !! y); [done|]. by rewrite lookup_insert_ne. }
        rewrite H. destruct IH as [[E [I J]]|[E J]]; [left; split; [done|]; split; [done|]; right; split; [done|discriminate]|].
        right. split; [done|]. intros [I [K|[K _]]]; [congruence|by apply J].
    + unfold unregister_view. destruct (decide (y = x)) as [->|N].
      * right. rewrite lookup_delete. split; [done|]. intros [_ [?|[_ ?]]]; [discriminate|congruence].
      * rewrite lookup_delete_ne by done. destruct IH as [[E [I J]]|[E J]]; [left; split; [done|]; split; [done|]; right; split; [done|congruence]|].
        right. split; [done|]. intros [I [K|[K _]]]; [discriminate|by apply J].
Qed.

Section entries.
Variables (l : list dact) (es : entries).
Hypothesis Hes : Permutation es (map_to_list (drun l)).
Lemma entry_in x r : In (x, r) es <-> offered x l /\ r = described x.
Proof.
  rewrite <- elem_of_list_In, Hes, elem_of_map_to_list. destruct (drun_lookup l x) as [[E H]|[E H]]; rewrite E; naive_solver.
Qed.
Lemma entry_nodup : NoDup (map fst es).
Proof. assert (P : Permutation (map fst es) (map fst (map_to_list (drun l)))) by by apply Permutation_map. rewrite P. apply NoDup_fst_map_to_list. Qed.
Lemma gvks_in x : In x (registered_gvks es) <-> offered x l.
Proof.
  unfold registered_gvks. rewrite in_map_iff. split; [intros ([y r] & <- & H); by apply entry_in in H as [? _]|]. intros H. exists (x, described x). split; [done|]. by apply entry_in.
Qed.
End entries.

Lemma offered_version x l : offered x l -> gvk_version x = view_version /\ is_view_group (gvk_group x) = true.
Proof.
  intros [H _]. unfold is_object_kind, is_view_kind, is_view_gv in H. apply andb_true_iff in H as [H _]. apply andb_true_iff in H as [H1 H2]. split; [by apply String.eqb_eq|done].
Qed.

Lemma NoDup_filter_map {A B} (f : A -> B) (p : A -> bool) l : NoDup (map f l) -> NoDup (map f (List.filter p l)).
Proof.
  induction l as [|x l IH]; intros N; [constructor|]. cbn [map] in N. apply NoDup_cons in N as [N1 N2]. cbn [List.filter]. destruct (p x); [|by apply IH].
  cbn [map]. apply NoDup_cons. split; [|by apply IH]. intros H. apply N1. apply elem_of_list_In, in_map_iff in H as (y & <- & H). apply filter_In in H as [H _]. by apply elem_of_list_In, in_map.
Qed.

(** *** Groups *)
Lemma versions_of xs : forall m g, (foldl add_version m xs) !! g =
  match List.filter (fun x => String.eqb (gvk_group x) g) xs with
  | [] => m !! g
  | ys => Some (default [] (m !! g) ++ map (fun x => (gv_string (gvk_group x) (gvk_version x), gvk_version x)) ys)
  end.
Proof.
  induction xs as [|x xs IH]; intros m g; [done|]. cbn [foldl List.filter]. rewrite IH. unfold add_version. destruct (String.eqb_spec (gvk_group x) g) as [E|N].
  - rewrite E, lookup_insert. cbn [from_option id]. destruct (List.filter _ xs) as [|y ys]; cbn [map]; [by rewrite E|]. rewrite E. f_equal. unfold id. by rewrite <- app_assoc.
  - by rewrite lookup_insert_ne.
Qed.
Lemma find_preferred vs v : (forall w, In w vs -> w = v) -> vs <> [] -> v.2 = view_version -> preferred vs = v.
Proof.
  intros H N E. destruct vs as [|w vs]; [done|]. assert (w = v) as -> by (apply H; by left). unfold preferred. cbn [List.find]. by rewrite E, String.eqb_refl.
Qed.
Section groups.
Variables (l : list dact) (es : entries) (ord : list (string * list (string * string)) -> list (string * list (string * string))).
Hypothesis Hes : Permutation es (map_to_list (drun l)).
Hypothesis Hord : forall xs, Permutation (ord xs) xs.
Lemma groups_names : NoDup (map ag_name (view_groups es ord)).
Proof.
  unfold view_groups. rewrite map_map. assert (P : Permutation (map (fun x : string * list (string * string) => ag_name (let '(g, vs) := x in ApiGroup g vs (preferred vs))) (ord (map_to_list (foldl add_version ∅ (map fst es)))))
    (map fst (map_to_list (foldl add_version ∅ (map fst es))))).
  { etransitivity; [apply Permutation_map, Hord|]. erewrite map_ext; [reflexivity|]. by intros [g vs]. }
  rewrite P. apply NoDup_fst_map_to_list.
Qed.
Lemma groups_in g vs p : In (ApiGroup g vs p) (view_groups es ord) <->
  p = preferred vs /\ vs = map (fun x => (gv_string (gvk_group x) (gvk_version x), gvk_version x)) (List.filter (fun x => String.eqb (gvk_group x) g) (map fst es)) /\ vs <> [].
Proof.
  unfold view_groups. rewrite in_map_iff. split.
  - intros ([g' vs'] & E & H). injection E as -> -> <-. rewrite <- elem_of_list_In, Hord, elem_of_map_to_list, versions_of in H. rewrite lookup_empty in H.
    destruct (List.filter _ _) as [|y ys] eqn:F; [done|]. injection H as <-. done.
  - intros (-> & E & N). exists (g, vs). split; [done|]. rewrite <- elem_of_list_In, Hord, elem_of_map_to_list, versions_of, lookup_empty.
    destruct (List.filter _ _) as [|y ys] eqn:F; [by subst|]. by subst.
Qed.
End groups.

(** *** Kinds and resources *)
Lemma find_unique {A} (p : A -> bool) l : (exists x, In x l /\ p x = true) -> exists x, List.find p l = Some x /\ In x l /\ p x = true.
Proof.
  intros (x & H & E). destruct (List.find p l) as [y|] eqn:F; [exists y; by apply find_some in F as [? ?]|]. by rewrite (find_none _ _ F _ H) in E.
Qed.
Lemma kind_found l es r : Permutation es (map_to_list (drun l)) ->
  kind_from_resource es r = None /\ (forall x, offered x l -> lower (gvk_kind x) <> r) \/ exists x, kind_from_resource es r = Some (gvk_kind x) /\ offered x l /\ lower (gvk_kind x) = r.
Proof.
  intros Hes. unfold kind_from_resource. destruct (List.find _ es) as [[x a]|] eqn:F.
  - right. exists x. split; [done|]. apply find_some in F as [H E]. apply (entry_in l es Hes) in H as [H ->]. split; [done|]. cbn in E. rewrite !orb_true_iff, !String.eqb_eq in E. tauto.
  - left. split; [done|]. intros x H E. assert (I : In (x, described x) es) by by apply (entry_in l es Hes). pose proof (find_none _ _ F _ I) as X. cbn in X.
    apply String.eqb_eq in E. by rewrite E, !orb_true_r in X.
Qed.

(** *** Resource lists *)
Lemma resources_in l es : Permutation es (map_to_list (drun l)) -> forall g v rs, has_slash g = false -> has_slash v = false -> view_resources es (gv_string g v) = Some rs ->
  NoDup (map ar_kind rs) /\ (forall r, In r rs <-> exists x, offered x l /\ gvk_group x = g /\ gvk_version x = v /\ r = described x).
Proof.
  intros Hes g v rs Hg Hv. unfold view_resources. rewrite gv_noslash_parse by done. intros [= <-].
  assert (In1 : forall r, In r (map snd (List.filter (fun e : gvk * api_resource => same_gv g v e.1) es)) <-> exists x, offered x l /\ gvk_group x = g /\ gvk_version x = v /\ r = described x).
  { intros r. rewrite in_map_iff. split.
    - intros ([y r'] & <- & H). apply filter_In in H as [H E]. apply (entry_in l es Hes) in H as [H ->]. unfold same_gv in E. cbn in E. apply andb_true_iff in E as [E1 E2]. apply String.eqb_eq in E1, E2. exists y. done.
    - intros (y & H & <- & <- & ->). exists (y, described y). split; [done|]. apply filter_In. split; [by apply (entry_in l es Hes)|]. unfold same_gv. cbn. by rewrite !String.eqb_refl. }
  split; [|done]. pose proof (entry_nodup l es Hes) as N. assert (In2 : forall x r, In (x, r) es -> r = described x) by (intros y r H; by apply (entry_in l es Hes) in H as [_ ?]). clear Hes In1.
  induction es as [|[y r] es' IH]; [constructor|]. cbn [map fst] in N. apply NoDup_cons in N as [N1 N2]. cbn [List.filter fst]. destruct (same_gv g v y) eqn:S; [|apply IH; [done|intros; apply In2; by right]].
  cbn [map snd]. apply NoDup_cons. split; [|apply IH; [done|intros; apply In2; by right]]. intros H. apply N1. apply elem_of_list_In, in_map_iff in H as (r' & Er & H). apply in_map_iff in H as ([z r''] & <- & H).
  apply filter_In in H as [H E]. cbn in Er, E. rewrite (In2 y r) in Er by by left. rewrite (In2 z r'') in Er by by right. cbn in Er. unfold same_gv in *. apply andb_true_iff in E as [E1 E2], S as [S1 S2].
  apply String.eqb_eq in E1, E2, S1, S2. apply elem_of_list_In, in_map_iff. exists (z, r''). split; [|done]. cbn. destruct y, z. cbn in *. congruence.
Qed.
Lemma lists_in es gvs : (forall gv, In gv gvs -> has_slash gv.1 = false /\ has_slash gv.2 = false) ->
  exists ls, view_resource_lists es gvs = Some ls /\ forall gv rs, In (gv, rs) ls <-> rs <> [] /\ exists g v, In (g, v) gvs /\ gv = gv_string g v /\ view_resources es gv = Some rs.
Proof.
  induction gvs as [|[g v] gvs IH]; intros H.
  - exists []. split; [done|]. intros gv rs. cbn. split; [done|]. by intros (_ & ? & ? & [] & _).
  - destruct IH as (ls & E & I); [intros; apply H; by right|]. destruct (H (g, v)) as [Hg Hv]; [by left|]. cbn [view_resource_lists foldr fst snd].
    fold (view_resource_lists es gvs). rewrite E. unfold view_resources at 1. rewrite gv_noslash_parse by done. eexists. split; [reflexivity|]. intros gv rs.
    assert (X : view_resources es (gv_string g v) = Some (map snd (List.filter (fun e : gvk * api_resource => same_gv g v e.1) es))) by (unfold view_resources; by rewrite gv_noslash_parse).
    case_bool_decide as B.
    + rewrite I. split; intros (N & g' & v' & Hin & -> & Er); (split; [done|]).
      * exists g', v'. split; [by right|done].
      * destruct Hin as [Eq|Hin]; [|by exists g', v']. injection Eq as <- <-. rewrite X, B in Er. by injection Er as <-.
    + cbn [In]. rewrite I. split.
      * intros [Eq|(N & g' & v' & Hin & -> & Er)]; [|split; [done|]; exists g', v'; split; [by right|done]]. injection Eq as <- <-. split; [done|]. exists g, v. split; [by left|done].
      * intros (N & g' & v' & [Eq|Hin] & -> & Er); [|right; split; [done|]; by exists g', v']. injection Eq as <- <-. left. rewrite X in Er. by injection Er as <-.
Qed.
Lemma gv_string_inj g v g' v' : has_slash g = false -> has_slash v = false -> has_slash g' = false -> has_slash v' = false -> gv_string g v = gv_string g' v' -> g = g' /\ v = v'.
Proof. intros A B C D E. pose proof (gv_noslash_parse g v A B) as X. rewrite E, gv_noslash_parse in X by done. by injection X. Qed.
Lemma lists_nodup es gvs : NoDup gvs -> (forall gv, In gv gvs -> has_slash gv.1 = false /\ has_slash gv.2 = false) ->
  forall ls, view_resource_lists es gvs = Some ls -> NoDup (map fst ls).
Proof.
  induction gvs as [|[g v] gvs IH]; intros N H ls; [intros [= <-]; constructor|]. apply NoDup_cons in N as [N1 N2]. destruct (H (g, v)) as [Hg Hv]; [by left|].
  assert (H' : forall gv, In gv gvs -> has_slash gv.1 = false /\ has_slash gv.2 = false) by (intros; apply H; by right).
  cbn [view_resource_lists foldr fst snd]. fold (view_resource_lists es gvs). destruct (lists_in es gvs H') as (ls' & E & I). rewrite E. destruct (view_resources es (gv_string g v)) as [rs|]; [|done].
  specialize (IH N2 H' ls' E). intros [= <-]. case_bool_decide; [done|]. cbn [map fst]. apply NoDup_cons. split; [|done].
  intros X. apply elem_of_list_In, in_map_iff in X as ([gv rs'] & Eq & X). cbn in Eq. subst gv. apply I in X as (_ & g' & v' & Hin & Eq & _). apply N1, elem_of_list_In.
  destruct (H' _ Hin) as [A B]. cbn in A, B. by destruct (gv_string_inj g v g' v' Hg Hv A B Eq) as [-> ->].
Qed.

(** *** The composite client *)
Section client.
Variable hash : string -> string.
Variable lister : store -> list jobj.
Variables (N R : Type) (native : N -> ccall -> N * R).
Notation cstep := (cstep hash lister N R native).
Notation crun := (crun hash lister N R native).
Notation nrun := (native_run native).

Lemma step_views s c : cc_native s <> None -> about_views c = true ->
  cc_native (cstep s c).1 = cc_native s /\ forall s', cc_native s' <> None -> cc_views s' = cc_views s -> cc_views (cstep s' c).1 = cc_views (cstep s c).1 /\ (cstep s' c).2 = (cstep s c).2.
Proof.
  intros Hn V. unfold about_views, call_gvk in V. destruct s as [v [n|]]; [|done]. destruct c as [o|o|x ns name|x sel|x]; cbn [DiscoModel.cstep cc_native cc_views]; rewrite V; try (destruct (vstep hash lister v o) as [[v' es] r] eqn:E);
  (split; [done|]; intros [w [n'|]] H; [|done]; intros Ew; cbn in Ew; subst w; cbn [cc_native cc_views]; rewrite ?E; done).
Qed.
Lemma step_others s c : cc_native s <> None -> about_views c = false -> cc_views (cstep s c).1 = cc_views s.
Proof.
  intros Hn V. unfold about_views, call_gvk in V. destruct s as [v [n|]]; [|done]. destruct c as [o|o|x ns name|x sel|x]; cbn [DiscoModel.cstep cc_native cc_views]; rewrite ?V; unfold to_native; cbn [cc_native]; try done; by destruct (native n _).
Qed.
Lemma step_native s c : is_Some (cc_native s) -> is_Some (cc_native (cstep s c).1).
Proof.
  intros [n Hn]. destruct c as [o|o|x ns name|x sel|x]; cbn [DiscoModel.cstep]; unfold to_native; rewrite ?Hn; try (destruct (is_view_kind _); [|by destruct (native n _)]);
    try (destruct (vstep hash lister _ o) as [[v' es] r]); cbn; rewrite ?Hn; try done; by eexists.
Qed.
Lemma crun_cons s c l : crun s (c :: l) = ((crun (cstep s c).1 l).1, (cstep s c).2 :: (crun (cstep s c).1 l).2).
Proof. cbn [DiscoModel.crun]. destruct (cstep s c) as [s1 a]. cbn. by destruct (crun s1 l). Qed.
Lemma crun_length s l : length (crun s l).2 = length l.
Proof. revert s. induction l as [|c l IH]; intros s; [done|]. rewrite crun_cons. cbn. by rewrite IH. Qed.

(** Dropping the calls about other objects changes nothing for views. *)
Lemma run_views l : forall s s', is_Some (cc_native s) -> is_Some (cc_native s') -> cc_views s = cc_views s' ->
  answers_to about_views l (crun s l).2 = (crun s' (List.filter about_views l)).2 /\ cc_views (crun s l).1 = cc_views (crun s' (List.filter about_views l)).1.
Proof.
  induction l as [|c l IH]; intros s s' Hs Hs' E; [done|]. rewrite crun_cons. unfold answers_to. cbn [combine List.filter fst snd]. destruct (about_views c) eqn:V.
  - rewrite crun_cons. cbn [map fst snd]. assert (H1 : cc_native s <> None) by by destruct Hs as [? ->]. assert (H2 : cc_native s' <> None) by by destruct Hs' as [? ->].
    destruct (step_views s c H1 V) as [_ H]. destruct (H s' H2 (eq_sym E)) as [A B]. destruct (IH (cstep s c).1 (cstep s' c).1 (step_native _ _ Hs) (step_native _ _ Hs') (eq_sym A)) as [I1 I2]. rewrite B. split; [by f_equal|done].
  - assert (H1 : cc_native s <> None) by by destruct Hs as [? ->]. apply IH; [by apply step_native|done|]. by rewrite step_others.
Qed.
(** ... and the other way round. *)
Lemma step_others_answer s c n : cc_native s = Some n -> about_others c = true ->
  cc_native (cstep s c).1 = Some (if match c with CWatch _ => false | _ => true end then (native n c).1 else n) /\ (cstep s c).2 = if match c with CWatch _ => false | _ => true end then ANative (native n c).2 else ANoWatch.
Proof.
  intros Hn V. unfold about_others, call_gvk in V. apply negb_true_iff in V. destruct c as [o|o|x ns name|x sel|x]; cbn [DiscoModel.cstep]; rewrite ?Hn, V; unfold to_native; rewrite ?Hn; try done; by destruct (native n _).
Qed.
Lemma run_native l : forall s n, cc_native s = Some n ->
  cc_native (crun s l).1 = Some (nrun n (native_calls l)) /\
  forall v, answers_to about_others l (crun s l).2 = (crun (Comp v (Some n)) (List.filter about_others l)).2.
Proof.
  induction l as [|c l IH]; intros s n Hn; [done|]. rewrite crun_cons. unfold native_calls, answers_to. cbn [combine List.filter fst snd]. destruct (about_others c) eqn:V.
  - destruct (step_others_answer s c n Hn V) as [A B]. destruct (IH _ _ A) as [I1 I2]. split.
    + rewrite I1. unfold native_calls. by destruct c.
    + intros v. rewrite crun_cons. destruct (step_others_answer (Comp v (Some n)) c n eq_refl V) as [A' B']. cbn [map fst snd]. rewrite B, B'. f_equal.
      etransitivity; [apply (I2 (cc_views (cstep (Comp v (Some n)) c).1))|]. f_equal. f_equal. destruct (cstep (Comp v (Some n)) c).1 as [v' n']. cbn in *. by rewrite A'.
  - assert (W : about_views c = true) by (unfold about_others in V; unfold about_views; by destruct (is_view_kind _)). assert (H1 : cc_native s <> None) by by rewrite Hn.
    destruct (step_views s c H1 W) as [A _]. rewrite Hn in A. apply (IH _ _ A).
Qed.
Lemma run_view_writes l : forall s, is_Some (cc_native s) -> cc_views (crun s l).1 = (cache_run hash lister (cc_views s) (view_writes l)).1.1.
Proof.
  induction l as [|c l IH]; intros s Hs; [done|]. rewrite crun_cons. cbn [fst]. rewrite IH by by apply step_native. unfold view_writes. cbn [omap list_omap]. fold (view_writes l).
  destruct (about_views c) eqn:V; [|rewrite step_others; [done|by destruct Hs as [? ->]|done]].
  unfold about_views, call_gvk in V. destruct Hs as [n Hn]. destruct c as [o|o|x ns name|x sel|x]; cbn [DiscoModel.cstep]; rewrite ?Hn, V; cbn [fst cache_run]; try done;
    (destruct (vstep hash lister (cc_views s) o) as [[v' es] r]; cbn [fst cc_views]; change (omap _ l) with (view_writes l); by destruct (cache_run hash lister v' (view_writes l)) as [[? ?] ?]).
Qed.
(** Without a Kubernetes side. *)
Lemma run_headless l : forall s s', is_Some (cc_native s) -> cc_native s' = None -> cc_views s = cc_views s' -> Forall (fun c => about_views c = true /\ is_status c = false) l ->
  (crun s' l).2 = (crun s l).2 /\ cc_views (crun s' l).1 = cc_views (crun s l).1.
Proof.
  induction l as [|c l IH]; intros s s' Hs Hs' E F; [done|]. apply Forall_cons in F as [[V St] F]. rewrite !crun_cons. cbn [fst snd].
  assert (A : (cstep s' c).2 = (cstep s c).2 /\ cc_views (cstep s' c).1 = cc_views (cstep s c).1 /\ cc_native (cstep s' c).1 = None).
  { unfold about_views, call_gvk in V. destruct c as [o|o|x ns name|x sel|x]; [|done|..]; cbn [DiscoModel.cstep]; rewrite V, <- ?E; cbn [fst snd]; rewrite ?E; try done. by destruct (vstep hash lister (cc_views s') o) as [[v' es] r]. }
  destruct A as (A1 & A2 & A3). destruct (IH (cstep s c).1 (cstep s' c).1 (step_native _ _ Hs) A3 (eq_sym A2) F) as [I1 I2]. by rewrite A1, I1, I2.
Qed.
End client.
