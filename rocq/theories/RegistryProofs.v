From Verif Require Import RegistryModel RegistrySpec GroupProofs.
From Coq Require Import Ascii.

Lemma in_group_of g l : of_group g l = in_group g l.
Proof.
  unfold of_group, in_group. apply filter_ext. intros x. destruct (String.eqb_spec (gvk_group x) g).
  - by rewrite bool_decide_eq_true_2. - by rewrite bool_decide_eq_false_2.
Qed.
Lemma elem_in_group g l x : x ∈ in_group g l <-> x ∈ l /\ gvk_group x = g.
Proof. rewrite !elem_of_list_In. unfold in_group. rewrite filter_In, bool_decide_eq_true. done. Qed.
Lemma in_group_nil g l : in_group g l = [] <-> forall x, x ∈ l -> gvk_group x <> g.
Proof.
  split.
  - intros E x H1 H2. assert (x ∈ in_group g l) by (by apply elem_in_group). rewrite E in H. by apply elem_of_nil in H.
  - intros H. destruct (in_group g l) as [|x l'] eqn:E; [done|].
    assert (X : x ∈ in_group g l) by (rewrite E; left). apply elem_in_group in X. destruct X. exfalso. by eapply H.
Qed.
Lemma vgn g : is_view_group g = true <-> view_group_name g.
Proof. unfold is_view_group. apply has_suffix_iff. Qed.

(** *** The scheme *)
Section scheme.
Variable servable : gvk -> bool.
Variable M : gvk -> Prop.
Hypothesis KO : kinds_ok servable M.
Definition typed (y : gvk) (t : stype) : Prop := exists x, M x /\ (y, t) ∈ types_of x.
Lemma not_meta_list k k' : k ∈ meta_kinds -> (k' +:+ "List")%string <> k.
Proof.
  intros H E. pose proof (has_suffix_app "List" k') as X. rewrite E in X.
  unfold meta_kinds in H. repeat (apply elem_of_cons in H as [->|H]; [vm_compute in X; discriminate|]). by apply elem_of_nil in H.
Qed.
Lemma typed_cases y t : typed y t ->
  gvk_version y <> EmptyString /\
  ((t = TObject /\ M y)
   \/ (t = TList /\ exists x, M x /\ y = list_gvk x)
   \/ (gvk_version y = "__internal"%string /\ gvk_kind y = "WatchEvent"%string /\ t = TMeta "InternalEvent")
   \/ (gvk_version y = "v1alpha1"%string /\ gvk_kind y ∈ meta_kinds /\ t = TMeta (gvk_kind y))).
Proof.
  intros (x & Hx & H). destruct (KO x Hx) as (V & _ & R & L). unfold types_of in H.
  apply elem_of_app in H. destruct H as [H|H].
  - unfold meta_types in H. apply elem_of_cons in H. destruct H as [[= -> ->]|H].
    + split; [done|]. right. right. left. done.
    + apply elem_of_list_fmap in H. destruct H as (k & [= -> ->] & Hk). cbn. rewrite V. split; [done|]. right. right. right. done.
  - apply elem_of_cons in H. destruct H as [[= -> ->]|H].
    + rewrite V. split; [done|]. left. done.
    + apply elem_of_list_singleton in H. injection H as -> ->. cbn. rewrite V. split; [done|]. right. left. split; [done|]. by exists x.
Qed.
Lemma typed_fun y t t' : typed y t -> typed y t' -> t = t'.
Proof.
  intros H H'. destruct (typed_cases y t H) as (_ & C). destruct (typed_cases y t' H') as (_ & C').
  assert (MR : forall z, M z -> gvk_version z = "v1alpha1"%string /\ gvk_kind z ∉ meta_kinds) by (intros z Hz; by destruct (KO z Hz) as (? & _ & ? & _)).
  assert (ML : forall z, M z -> M (list_gvk z) -> False).
  { intros z Hz Hl. destruct (KO z Hz) as (_ & _ & _ & L). exact (L _ Hl eq_refl eq_refl). }
  assert (LV : forall z, M z -> gvk_version (list_gvk z) = "v1alpha1"%string) by (intros z Hz; exact (proj1 (MR z Hz))).
  assert (LK : forall z, gvk_kind (list_gvk z) ∉ meta_kinds) by (intros z Hz; by apply (not_meta_list _ (gvk_kind z) Hz)).
  destruct C as [[-> Hy]|[[-> (x & Hx & ->)]|[(V & K & ->)|(V & K & ->)]]];
    destruct C' as [[-> Hy']|[[-> (x' & Hx' & E)]|[(V' & K' & ->)|(V' & K' & ->)]]]; try done.
  - subst. exfalso. exact (ML _ Hx' Hy).
  - destruct (MR _ Hy) as [E _]. rewrite E in V'. done.
  - by destruct (MR _ Hy).
  - exfalso. exact (ML _ Hx Hy').
  - pose proof (LV _ Hx). congruence.
  - by destruct (LK x).
  - destruct (MR _ Hy') as [E _]. congruence.
  - subst. pose proof (LV _ Hx'). congruence.
  - congruence.
  - by destruct (MR _ Hy').
  - subst. by destruct (LK x').
  - congruence.
Qed.
Lemma add_types_ok l : forall s, (forall y t, s !! y = Some t -> typed y t) -> (forall y t, (y, t) ∈ l -> typed y t) ->
  (add_types s l).2 = true /\ forall y t, (add_types s l).1 !! y = Some t -> typed y t.
Proof.
  induction l as [|[x t] l IH]; intros s Hs Hl; [done|]. cbn.
  assert (T : typed x t) by (apply Hl; left). destruct (typed_cases x t T) as [V _].
  unfold add_type. rewrite decide_False by done. destruct (s !! x) as [t'|] eqn:E; cbn.
  - rewrite bool_decide_eq_true_2 by (by eapply typed_fun; [|apply Hs]). apply IH; [done|]. intros. apply Hl. by right.
  - apply IH.
    + intros y t0. rewrite lookup_insert_Some. intros [[-> ->]|[_ ?]]; [done|by apply Hs].
    + intros. apply Hl. by right.
Qed.
Lemma scheme_ok s l : (forall y t, s !! y = Some t -> typed y t) -> (forall x, x ∈ l -> M x) ->
  (add_types_to_scheme s l).2 = true /\ forall y t, (add_types_to_scheme s l).1 !! y = Some t -> typed y t.
Proof.
  intros Hs Hl. apply add_types_ok; [done|]. intros y t H. apply elem_of_list_In, in_concat in H. destruct H as (l0 & H1 & H2).
  apply in_map_iff in H1. destruct H1 as (x & <- & Hx). exists x. split; [by apply Hl, elem_of_list_In|by apply elem_of_list_In].
Qed.
End scheme.

(** *** Group-level steps *)
Inductive gcall := RG (g : string) (l : list gvk) | UG (g : string).
Definition upd (cur : string -> list gvk) (g : string) (l : list gvk) : string -> list gvk := fun g' => if decide (g' = g) then l else cur g'.
Definition gcur (cur : string -> list gvk) (e : gcall) : string -> list gvk := match e with RG g l => upd cur g l | UG g => upd cur g [] end.

Definition resource_of (x : gvk) : gvr := (gvk_group x, "v1alpha1"%string, lower (gvk_kind x)).
Definition entry_of (x : gvk) : string * gvk := (lower (gvk_kind x), x).
Definition expected (l : list gvk) : option (list (string * gvk)) := match l with [] => None | _ => Some (map entry_of l) end.

Section run.
Variable servable : gvk -> bool.
Variable M : gvk -> Prop.
Hypothesis KO : kinds_ok servable M.
Definition gok (e : gcall) : Prop :=
  match e with RG g l => is_view_group g = true /\ l <> [] /\ (forall x, x ∈ l -> gvk_group x = g /\ M x) | UG g => True end.
Definition gstep (s : apiserver) (e : gcall) : apiserver := match e with RG g l => (register_group servable s g l).1 | UG g => unregister_group s g end.

Record inv (cur : string -> list gvk) (s : apiserver) : Prop := {
  inv_cur : forall g x, x ∈ cur g -> is_view_group g = true /\ gvk_group x = g /\ M x;
  inv_reg : forall g, registered s !! g = match cur g with [] => None | l => Some l end;
  inv_has : forall g x, x ∈ cur g -> exists y, y ∈ cur g /\ storage s !! resource_of x = Some y;
  inv_only : forall k x, storage s !! k = Some x -> k = resource_of x /\ is_view_group (gvk_group x) = true /\ M x;
  inv_groups : forall g, groups s !! g = match cur g with [] => None | _ => Some ["v1alpha1"%string] end;
  inv_versions : forall g, versions s !! version_key g "v1alpha1" = expected (cur g);
  inv_aggr : forall g, discover_aggregated s g "v1alpha1" = expected (cur g);
  inv_scheme : forall y t, scheme s !! y = Some t -> typed M y t }.
Lemma inv_new : inv (fun _ => []) api_new.
Proof. split; try done; intros; try by (exfalso; eapply elem_of_nil). Qed.

Lemma view_find x : is_view_group (gvk_group x) = true -> gvk_version x = "v1alpha1"%string -> find_resource x = Some (lower (gvk_kind x)).
Proof. intros H V. unfold find_resource, is_view_kind, is_view_gv. by rewrite H, V. Qed.
Definition viewy (l : list gvk) : Prop := forall x, x ∈ l -> is_view_group (gvk_group x) = true /\ M x.
Lemma viewy_cons x l : viewy (x :: l) -> (is_view_group (gvk_group x) = true /\ M x) /\ viewy l.
Proof. intros H. split; [apply H; left|intros y Hy; apply H; by right]. Qed.
Lemma gvr_resource x : M x -> gvr_of x (lower (gvk_kind x)) = resource_of x.
Proof. intros H. destruct (KO x H) as (V & _). unfold gvr_of, resource_of. by rewrite V. Qed.

Lemma add_storages_ok l : viewy l -> forall s, (add_storages servable s l).2 = true /\
  (forall k y, (add_storages servable s l).1 !! k = Some y -> (y ∈ l /\ k = resource_of y) \/ (s !! k = Some y /\ forall x, x ∈ l -> k <> resource_of x)) /\
  (forall x, x ∈ l -> exists y, y ∈ l /\ (add_storages servable s l).1 !! resource_of x = Some y) /\
  (forall k, (forall x, x ∈ l -> k <> resource_of x) -> (add_storages servable s l).1 !! k = s !! k).
Proof.
  induction l as [|x l IH]; intros VL s.
  { cbn. split; [done|]. split; [intros; right; split; [done|]; intros ? ?%elem_of_nil; done|]. split; [intros ? ?%elem_of_nil; done|done]. }
  apply viewy_cons in VL as [(Gx & Mx) VL]. destruct (KO x Mx) as (V & SV & _). cbn.
  rewrite (view_find x Gx V), SV, (gvr_resource x Mx).
  destruct (IH VL (<[resource_of x:=x]> s)) as (A & B & C & D). split; [done|]. split; [|split].
  - intros k y H. destruct (B k y H) as [[Hy E]|[H1 H2]].
    + left. split; [by right|done].
    + apply lookup_insert_Some in H1. destruct H1 as [[<- <-]|[N H1]].
      * left. split; [by left|done].
      * right. split; [done|]. intros z Hz. apply elem_of_cons in Hz. destruct Hz as [->|Hz]; [done|by apply H2].
  - intros z Hz. apply elem_of_cons in Hz. destruct Hz as [->|Hz].
    + destruct (decide (Exists (fun y => resource_of x = resource_of y) l)) as [E|E].
      * apply Exists_exists in E. destruct E as (y & Hy & E). destruct (C y Hy) as (w & Hw & Ew). exists w. split; [by right|]. exact (eq_trans (f_equal (fun k => _ !! k) E) Ew).
      * exists x. split; [left|]. rewrite D; [by rewrite lookup_insert|]. intros y Hy Q. apply E, Exists_exists. exists y. done.
    + destruct (C z Hz) as (w & Hw & Ew). exists w. split; [by right|done].
  - intros k H. rewrite D by (intros y Hy; apply H; by right). rewrite lookup_insert_ne; [done|]. intros Q. apply (H x); [left|by symmetry].
Qed.
Lemma remove_storages_ok l : viewy l -> forall s k,
  (remove_storages s l) !! k = if decide (Exists (fun x => k = resource_of x) l) then None else s !! k.
Proof.
  induction l as [|x l IH]; intros VL s k.
  { cbn. rewrite decide_False; [done|]. intros X. by apply Exists_nil in X. }
  apply viewy_cons in VL as [(Gx & Mx) VL]. destruct (KO x Mx) as (V & _). cbn. rewrite (view_find x Gx V), (gvr_resource x Mx), (IH VL).
  destruct (decide (Exists (fun y => k = resource_of y) l)) as [E|E].
  - rewrite decide_True; [done|]. by apply Exists_cons_tl.
  - destruct (decide (k = resource_of x)) as [->|N].
    + rewrite decide_True by (by apply Exists_cons_hd). by rewrite lookup_delete.
    + rewrite decide_False; [by rewrite lookup_delete_ne|]. intros X. apply Exists_cons in X. by destruct X.
Qed.

Lemma version_key_inj g g' v : version_key g v = version_key g' v -> g = g'.
Proof. unfold version_key. apply app_inv_tail. Qed.
Lemma versions_one l : l <> [] -> (forall x, x ∈ l -> gvk_version x = "v1alpha1"%string) -> versions_of l = ["v1alpha1"%string].
Proof.
  unfold versions_of. induction l as [|x l IH]; [done|]. intros _ H. cbn [map remove_dups]. rewrite (H x) by left.
  destruct l as [|y l]; [done|]. rewrite IH; [|done|intros; apply H; by right].
  destruct (decide_rel _ _ _) as [E|E]; [done|]. exfalso. apply E. cbn [map]. rewrite (H y) by (right; left). left.
Qed.
Lemma listed_all l : viewy l -> listed l "v1alpha1" = map entry_of l.
Proof.
  induction l as [|x l IH]; intros VL; [done|]. apply viewy_cons in VL as [(Gx & Mx) VL]. destruct (KO x Mx) as (V & _).
  unfold listed in *. cbn [omap list_omap map]. rewrite decide_True by done. rewrite (view_find x Gx V). cbn [fmap option_fmap option_map]. by rewrite (IH VL).
Qed.

Lemma register_done cur s g l : inv cur s -> gok (RG g l) -> (register_group servable s g l).2 = Done.
Proof.
  intros I (G & N & H). unfold register_group. rewrite G. cbn [negb].
  destruct (scheme_ok servable M KO (scheme s) l (inv_scheme _ _ I)) as [A _]; [intros x Hx; by apply H|].
  destruct (add_types_to_scheme (scheme s) l) as [sch ok]. cbn in A. subst ok. cbn [negb storage].
  destruct (add_storages_ok l) with (s := storage s) as [B _]; [intros x Hx; destruct (H x Hx) as [-> ?]; done|].
  destruct (add_storages servable (storage s) l) as [st ok]. cbn in B. subst ok. cbn [negb]. by destruct l.
Qed.
Lemma upd_eq cur g l : upd cur g l g = l.
Proof. unfold upd. by rewrite decide_True. Qed.
Lemma upd_ne cur g l g' : g' <> g -> upd cur g l g' = cur g'.
Proof. intros. unfold upd. by rewrite decide_False. Qed.

Lemma inv_register cur s g l : inv cur s -> gok (RG g l) -> inv (upd cur g l) (register_group servable s g l).1.
Proof.
  intros I (G & N & H).
  assert (VL : viewy l) by (intros x Hx; destruct (H x Hx) as [-> ?]; done).
  assert (V1 : forall x, x ∈ l -> gvk_version x = "v1alpha1"%string) by (intros x Hx; destruct (H x Hx) as [_ Mx]; by destruct (KO x Mx)).
  unfold register_group. rewrite G. cbn [negb].
  destruct (scheme_ok servable M KO (scheme s) l (inv_scheme _ _ I)) as [A A']; [intros x Hx; by apply H|].
  destruct (add_types_to_scheme (scheme s) l) as [sch ok]. cbn in A, A'. subst ok. cbn [negb storage].
  destruct (add_storages_ok l VL (storage s)) as (B & B1 & B2 & B3).
  destruct (add_storages servable (storage s) l) as [st ok]. cbn in B, B1, B2, B3. subst ok. cbn [negb].
  destruct l as [|x0 l0] eqn:El; [done|]. rewrite <- El in *. clear El. unfold register_discovery. cbn [fst scheme storage groups versions aggregated registered].
  rewrite (versions_one l) by done. cbn [foldr]. rewrite (listed_all l VL).
  assert (EX : expected l = Some (map entry_of l)) by (by destruct l).
  split; cbn [scheme storage groups versions aggregated registered].
  - intros g' x Hx. destruct (decide (g' = g)) as [->|Ng].
    + rewrite upd_eq in Hx. destruct (H x Hx). done.
    + rewrite upd_ne in Hx by done. by apply (inv_cur _ _ I).
  - intros g'. destruct (decide (g' = g)) as [->|Ng].
    + rewrite upd_eq, lookup_insert. by destruct l.
    + rewrite upd_ne, lookup_insert_ne by done. apply (inv_reg _ _ I).
  - intros g' x Hx. destruct (decide (g' = g)) as [->|Ng].
    + rewrite upd_eq in *. by apply B2.
    + rewrite upd_ne in * by done. destruct (inv_has _ _ I g' x Hx) as (y & Hy & E). exists y. split; [done|]. rewrite B3; [done|].
      intros z Hz Q. injection Q as Q _. destruct (H z Hz) as [Gz _]. destruct (inv_cur _ _ I g' x Hx) as (_ & Gx & _). congruence.
  - intros k x Hk. destruct (B1 k x Hk) as [[Hx ->]|[E _]].
    + destruct (H x Hx) as [-> Mx]. done.
    + by apply (inv_only _ _ I).
  - intros g'. destruct (decide (g' = g)) as [->|Ng].
    + rewrite upd_eq, lookup_insert. by destruct l.
    + rewrite upd_ne, lookup_insert_ne by done. apply (inv_groups _ _ I).
  - intros g'. destruct (decide (g' = g)) as [->|Ng].
    + by rewrite upd_eq, lookup_insert, EX.
    + rewrite upd_ne by done. rewrite lookup_insert_ne; [apply (inv_versions _ _ I)|]. intros Q. by apply version_key_inj in Q.
  - intros g'. unfold discover_aggregated. cbn [aggregated]. destruct (decide (g' = g)) as [->|Ng].
    + rewrite upd_eq, lookup_insert. cbn. by rewrite lookup_insert, EX.
    + rewrite upd_ne, lookup_insert_ne by done. apply (inv_aggr _ _ I).
  - done.
Qed.
Lemma inv_unregister cur s g : inv cur s -> inv (upd cur g []) (unregister_group s g).
Proof.
  intros I. unfold unregister_group. rewrite (inv_reg _ _ I g).
  destruct (cur g) as [|x0 l0] eqn:El.
  { assert (E : forall g', upd cur g [] g' = cur g') by (intros g'; unfold upd; by destruct (decide (g' = g)) as [->|]).
    destruct I. split; try done; intros; rewrite ?E in *; eauto. }
  set (l := x0 :: l0) in *.
  assert (VL : viewy l).
  { intros x Hx. rewrite <- El in Hx. destruct (inv_cur _ _ I g x Hx) as (? & -> & ?). done. }
  assert (GL : forall x, x ∈ l -> gvk_group x = g /\ gvk_version x = "v1alpha1"%string).
  { intros x Hx. rewrite <- El in Hx. destruct (inv_cur _ _ I g x Hx) as (? & ? & Mx). destruct (KO x Mx) as (? & _). done. }
  assert (VS : forall g', foldr (fun x m => delete (version_key (gvk_group x) (gvk_version x)) m) (versions s) l !! version_key g' "v1alpha1"
    = if decide (g' = g) then None else versions s !! version_key g' "v1alpha1").
  { intros g'. assert (AUX : forall l1, (forall x, x ∈ l1 -> x ∈ l) ->
      foldr (fun x m => delete (version_key (gvk_group x) (gvk_version x)) m) (versions s) l1 !! version_key g' "v1alpha1"
      = if decide (g' = g) then (match l1 with [] => versions s !! version_key g' "v1alpha1" | _ => None end) else versions s !! version_key g' "v1alpha1").
    { induction l1 as [|x l1 IH]; intros S1; [by destruct (decide _)|]. cbn [foldr]. destruct (GL x) as [-> ->]; [apply S1; left|].
      destruct (decide (g' = g)) as [->|Ng]; [by rewrite lookup_delete|].
      rewrite lookup_delete_ne by (intros Q; by apply version_key_inj in Q). rewrite IH; [done|]. intros; apply S1; by right. }
    rewrite AUX by done. by destruct (decide _). }
  split; cbn [scheme storage groups versions aggregated registered].
  - intros g' x Hx. destruct (decide (g' = g)) as [->|Ng]; [rewrite upd_eq in Hx; by apply elem_of_nil in Hx|].
    rewrite upd_ne in Hx by done. by apply (inv_cur _ _ I).
  - intros g'. destruct (decide (g' = g)) as [->|Ng]; [by rewrite upd_eq, lookup_delete|]. rewrite upd_ne, lookup_delete_ne by done. apply (inv_reg _ _ I).
  - intros g' x Hx. destruct (decide (g' = g)) as [->|Ng]; [rewrite upd_eq in Hx; by apply elem_of_nil in Hx|].
    rewrite upd_ne in * by done. destruct (inv_has _ _ I g' x Hx) as (y & Hy & E). exists y. split; [done|].
    rewrite (remove_storages_ok l VL), decide_False; [done|]. intros Q. apply Exists_exists in Q. destruct Q as (z & Hz & Q). injection Q as Q _.
    destruct (GL z Hz) as [Gz _]. destruct (inv_cur _ _ I g' x Hx) as (_ & Gx & _). congruence.
  - intros k x. rewrite (remove_storages_ok l VL). destruct (decide _); [done|]. apply (inv_only _ _ I).
  - intros g'. destruct (decide (g' = g)) as [->|Ng]; [by rewrite upd_eq, lookup_delete|]. rewrite upd_ne, lookup_delete_ne by done. apply (inv_groups _ _ I).
  - intros g'. rewrite VS. destruct (decide (g' = g)) as [->|Ng]; [by rewrite upd_eq|]. rewrite upd_ne by done. apply (inv_versions _ _ I).
  - intros g'. unfold discover_aggregated. cbn [aggregated]. destruct (decide (g' = g)) as [->|Ng]; [by rewrite upd_eq, lookup_delete|].
    rewrite upd_ne, lookup_delete_ne by done. apply (inv_aggr _ _ I).
  - apply (inv_scheme _ _ I).
Qed.

(** Nothing dropped: only current kinds are in the storage. *)
Definition exact (cur : string -> list gvk) (s : apiserver) : Prop := forall k x, storage s !! k = Some x -> x ∈ cur (gvk_group x).
Lemma exact_register cur s g l : inv cur s -> exact cur s -> gok (RG g l) -> (forall x, x ∈ cur g -> x ∈ l) ->
  exact (upd cur g l) (register_group servable s g l).1.
Proof.
  intros I X (G & N & H) S1 k x Hk.
  assert (VL : viewy l) by (intros y Hy; destruct (H y Hy) as [-> ?]; done).
  unfold register_group in Hk. rewrite G in Hk. cbn [negb] in Hk.
  destruct (scheme_ok servable M KO (scheme s) l (inv_scheme _ _ I)) as [A _]; [intros y Hy; by apply H|].
  destruct (add_types_to_scheme (scheme s) l) as [sch ok]. cbn in A. subst ok. cbn [negb storage] in Hk.
  destruct (add_storages_ok l VL (storage s)) as (B & B1 & _ & _).
  destruct (add_storages servable (storage s) l) as [st ok]. cbn in B, B1. subst ok. cbn [negb] in Hk.
  destruct l as [|x0 l0] eqn:El; [done|]. rewrite <- El in *. clear El. cbn in Hk.
  destruct (B1 k x Hk) as [[Hx _]|[E _]].
  - destruct (H x Hx) as [-> _]. by rewrite upd_eq.
  - specialize (X k x E). destruct (decide (gvk_group x = g)) as [Q|Q]; [rewrite Q in *; rewrite upd_eq; by apply S1|]. by rewrite upd_ne.
Qed.
Lemma exact_unregister cur s g : inv cur s -> exact cur s -> exact (upd cur g []) (unregister_group s g).
Proof.
  intros I X k x. unfold unregister_group. rewrite (inv_reg _ _ I g). destruct (cur g) as [|x0 l0] eqn:El.
  { intros Hk. specialize (X k x Hk). destruct (decide (gvk_group x = g)) as [Q|Q]; [|by rewrite upd_ne]. rewrite Q, El in X. by apply elem_of_nil in X. }
  set (l := x0 :: l0) in *. cbn [storage].
  assert (VL : viewy l) by (intros y Hy; rewrite <- El in Hy; destruct (inv_cur _ _ I g y Hy) as (? & -> & ?); done).
  rewrite (remove_storages_ok l VL). destruct (decide _) as [E|E]; [done|]. intros Hk.
  destruct (decide (gvk_group x = g)) as [Q|Q]; [|rewrite upd_ne by done; by eapply X].
  exfalso. apply E, Exists_exists. exists x. specialize (X k x Hk). rewrite Q, El in X. split; [done|]. by destruct (inv_only _ _ I k x Hk).
Qed.
End run.
