(** Proofs about the OpenAPI definitions. *)
From Verif Require Import OpenModel GroupSpec RegistrySpec OpenSpec JsonProofs GroupProofs RegistryProofs RegistryProofs2 RegistryProofs3.

(** *** Setting definitions *)
Lemma set_defs_app d a b : set_defs d (a ++ b) = set_defs (set_defs d a) b.
Proof. apply foldl_app. Qed.
Lemma set_defs_from l : forall d n D, set_defs d l !! n = Some D -> (n, D) ∈ l \/ d !! n = Some D.
Proof.
  induction l as [|[m E] l IH]; intros d n D H; [by right|]. destruct (IH _ _ _ H) as [H'|H']; [left; by right|].
  cbn [fst snd] in H'. destruct (decide (n = m)) as [->|N].
  - rewrite lookup_insert in H'. injection H' as <-. left. left.
  - rewrite lookup_insert_ne in H' by done. by right.
Qed.
Lemma set_defs_keeps l : forall d n D, d !! n = Some D -> set_defs d l !! n = Some D \/ exists E, (n, E) ∈ l /\ set_defs d l !! n = Some E.
Proof.
  induction l as [|[m E] l IH]; intros d n D H; [by left|]. change (set_defs d ((m, E) :: l)) with (set_defs (<[m := E]> d) l).
  destruct (decide (n = m)) as [->|N].
  - right. destruct (IH (<[m := E]> d) m E (lookup_insert _ _ _)) as [H'|(F & H1 & H2)]; [exists E; split; [left|done]|exists F; split; [by right|done]].
  - destruct (IH (<[m := E]> d) n D) as [H'|(F & H1 & H2)]; [by rewrite lookup_insert_ne|by left|right; exists F; split; [by right|done]].
Qed.
Lemma set_defs_in l : forall d n D, (n, D) ∈ l -> exists E, (n, E) ∈ l /\ set_defs d l !! n = Some E.
Proof.
  induction l as [|[m E] l IH]; intros d n D H; [by apply elem_of_nil in H|]. change (set_defs d ((m, E) :: l)) with (set_defs (<[m := E]> d) l).
  apply elem_of_cons in H as [[= -> ->]|H].
  - destruct (set_defs_keeps l (<[m := E]> d) m E (lookup_insert _ _ _)) as [H'|(F & H1 & H2)]; [exists E; split; [left|done]|exists F; split; [by right|done]].
  - destruct (IH (<[m := E]> d) n D H) as (F & H1 & H2). exists F. split; [by right|done].
Qed.

(** *** Names *)
Definition viewish (x : gvk) : Prop := view_group_name (gvk_group x) /\ gvk_version x = "v1alpha1"%string /\ no_dot (gvk_kind x).
Lemma no_dot_app a b : no_dot a -> no_dot b -> no_dot (a +:+ b).
Proof. induction a as [|c a IH]; [done|]. intros [H1 H2] H. change (c <> "."%char /\ no_dot (a +:+ b)). split; [done|]. by apply IH. Qed.
Lemma dot_inj p s p' s' : no_dot s -> no_dot s' -> p +:+ "." +:+ s = p' +:+ "." +:+ s' -> p = p' /\ s = s'.
Proof.
  intros H H' E. assert (s = s') as <-. { rewrite <- (last_part_app p s H), E. by apply last_part_app. }
  split; [|done]. by apply app_inv_tail in E.
Qed.
Lemma viewish_kind x : viewish x -> is_view_kind x = true.
Proof. intros (H1 & H2 & _). unfold is_view_kind, is_view_gv. rewrite H2. apply vgn in H1. by rewrite H1. Qed.
Lemma def_name_eq x : viewish x -> def_name x = (gvk_group x +:+ "." +:+ "v1alpha1") +:+ "." +:+ gvk_kind x.
Proof. intros (_ & H & _). unfold def_name. rewrite H, !app_assoc_s. done. Qed.
Lemma list_name_eq x : viewish x -> list_def_name x = (gvk_group x +:+ "/v1alpha1") +:+ "." +:+ (gvk_kind x +:+ "List").
Proof. intros (_ & H & _). unfold list_def_name. rewrite H, !app_assoc_s. done. Qed.
Lemma list_dotless x : viewish x -> no_dot (gvk_kind x +:+ "List").
Proof. intros (_ & _ & H). apply no_dot_app; [done|by repeat split]. Qed.
Lemma gvk_eq x y : gvk_group x = gvk_group y -> gvk_version x = gvk_version y -> gvk_kind x = gvk_kind y -> x = y.
Proof. destruct x, y. cbn. by intros -> -> ->. Qed.
Lemma def_name_inj x y : viewish x -> viewish y -> def_name x = def_name y -> x = y.
Proof.
  intros Hx Hy. rewrite !def_name_eq by done. intros E. apply dot_inj in E as [E1 E2]; [|apply Hx|apply Hy]. apply app_inv_tail in E1.
  apply gvk_eq; [done| |done]. destruct Hx as (_ & -> & _), Hy as (_ & -> & _). done.
Qed.
Lemma list_name_inj x y : viewish x -> viewish y -> list_def_name x = list_def_name y -> x = y.
Proof.
  intros Hx Hy. rewrite !list_name_eq by done. intros E. apply dot_inj in E as [E1 E2]; [|by apply list_dotless..]. apply app_inv_tail in E1, E2.
  apply gvk_eq; [done| |done]. destruct Hx as (_ & -> & _), Hy as (_ & -> & _). done.
Qed.
Lemma names_apart x y : viewish x -> viewish y -> def_name x <> list_def_name y.
Proof.
  intros Hx Hy. rewrite def_name_eq, list_name_eq by done. intros E. apply dot_inj in E as [E _]; [|apply Hx|by apply list_dotless].
  apply (f_equal last_part) in E. rewrite last_part_app in E by (by repeat split). destruct Hy as ([p Ep] & _). rewrite Ep in E.
  replace ((p +:+ "view.dcontroller.io") +:+ "/v1alpha1") with ((p +:+ "view.dcontroller") +:+ "." +:+ "io/v1alpha1") in E by (by rewrite !app_assoc_s).
  rewrite last_part_app in E by (by repeat split). done.
Qed.
Lemma name_apart x p s : viewish x -> no_dot s -> last_part p <> "v1alpha1"%string -> last_part p <> "io/v1alpha1"%string -> def_name x <> p +:+ "." +:+ s /\ list_def_name x <> p +:+ "." +:+ s.
Proof.
  intros Hx Hs N1 N2. assert (Q1 : last_part (gvk_group x +:+ "." +:+ "v1alpha1") = "v1alpha1"%string) by (apply last_part_app; by repeat split).
  assert (Q2 : last_part (gvk_group x +:+ "/v1alpha1") = "io/v1alpha1"%string).
  { destruct Hx as ([q ->] & _). replace ((q +:+ "view.dcontroller.io") +:+ "/v1alpha1") with ((q +:+ "view.dcontroller") +:+ "." +:+ "io/v1alpha1") by (by rewrite !app_assoc_s). apply last_part_app; by repeat split. }
  rewrite def_name_eq, list_name_eq by done.
  split; intros E; (apply dot_inj in E as [E _]; [|first [apply Hx|by apply list_dotless]|done]); apply (f_equal last_part) in E; first [rewrite Q1 in E; done|rewrite Q2 in E; done].
Qed.

(** *** What is generated *)
Section gen.
Variable base : odefs.
Variable iter : nat -> gmap string (list gvk) -> list gvk.
Hypothesis Hit : iterates iter.
Variable r : gmap string (list gvk).
Variable k : nat.
Definition among (x : gvk) : Prop := exists g l, r !! g = Some l /\ x ∈ l.
Hypothesis Hv : forall x, among x -> viewish x.
Lemma elem_defs n D : (n, D) ∈ concat (map defs_of (iter k r)) <-> exists x, among x /\ ((n = def_name x /\ D = gen_def x) \/ (n = list_def_name x /\ D = gen_list_def x)).
Proof.
  rewrite elem_of_list_In, in_concat. split.
  - intros (l & Hl & Hin). apply in_map_iff in Hl as (x & <- & Hx). apply elem_of_list_In, Hit in Hx. exists x. split; [done|]. unfold defs_of in Hin. rewrite (viewish_kind x) in Hin by (by apply Hv).
    destruct Hin as [[= <- <-]|[[= <- <-]|[]]]; auto.
  - intros (x & Hx & H). exists (defs_of x). split; [apply in_map_iff; exists x; split; [done|]; by apply elem_of_list_In, Hit|]. unfold defs_of. rewrite (viewish_kind x) by (by apply Hv).
    destruct H as [[-> ->]|[-> ->]]; [by left|right; by left].
Qed.
Lemma gen_has_kind x : among x -> generate base iter k r !! def_name x = Some (gen_def x).
Proof.
  intros Hx. unfold generate. rewrite set_defs_app. destruct (set_defs_in (concat (map defs_of (iter k r))) (set_defs base [(unstruct_name, gen_unstruct); (unstruct_list_name, gen_unstruct_list)]) (def_name x) (gen_def x)) as (E & H1 & H2); [apply elem_defs; exists x; auto|].
  rewrite H2. apply elem_defs in H1 as (y & Hy & [[En ->]|[En ->]]).
  - apply def_name_inj in En; [by subst y|by apply Hv..].
  - apply names_apart in En; [done|by apply Hv..].
Qed.
Lemma gen_has_list x : among x -> generate base iter k r !! list_def_name x = Some (gen_list_def x).
Proof.
  intros Hx. unfold generate. rewrite set_defs_app. destruct (set_defs_in (concat (map defs_of (iter k r))) (set_defs base [(unstruct_name, gen_unstruct); (unstruct_list_name, gen_unstruct_list)]) (list_def_name x) (gen_list_def x)) as (E & H1 & H2); [apply elem_defs; exists x; auto|].
  rewrite H2. apply elem_defs in H1 as (y & Hy & [[En ->]|[En ->]]).
  - symmetry in En. apply names_apart in En; [done|by apply Hv..].
  - apply list_name_inj in En; [by subst y|by apply Hv..].
Qed.
Lemma generate_describes : describes base among (generate base iter k r).
Proof.
  constructor.
  - intros x Hx. exists (def_name x), (gen_def x). split; [by apply gen_has_kind|done].
  - intros x Hx. exists (list_def_name x), (gen_list_def x), (def_name x). split; [by apply gen_has_list|]. split; [done|]. split; [done|]. split; [cbn; right; left|].
    exists (gen_def x). split; [by apply gen_has_kind|done].
  - intros n x (D & H & E). unfold generate in H. rewrite set_defs_app in H. apply set_defs_from in H as [H|H].
    + apply elem_defs in H as (y & Hy & [[_ ->]|[_ ->]]); cbn [gen_def gen_list_def od_gvk] in E; injection E as <-; [right; by left|right; right; by exists y].
    + apply set_defs_from in H as [H|H]; [|left; by exists D]. apply elem_of_cons in H as [[= _ ->]|H]; [done|]. apply elem_of_list_singleton in H as [= _ ->]. done.
  - intros n D H. unfold generate. rewrite set_defs_app.
    destruct (set_defs_keeps [(unstruct_name, gen_unstruct); (unstruct_list_name, gen_unstruct_list)] base n D H) as [H1|(E & H1 & _)].
    + destruct (set_defs_keeps (concat (map defs_of (iter k r))) _ n D H1) as [H2|(E & H2 & H3)]; [by left|]. right. right. right.
      apply elem_defs in H2 as (y & Hy & [[_ ->]|[_ ->]]); exists y; (split; [done|]); [left|right]; eexists; (split; [exact H3|done]).
    + right. apply elem_of_cons in H1 as [[= -> ->]|H1]; [by left|]. apply elem_of_list_singleton in H1 as [= -> _]. right. by left.
Qed.
End gen.

(** *** Runs *)
Section run.
Variable servable : gvk -> bool.
Variable base : odefs.
Variable iter : nat -> gmap string (list gvk) -> list gvk.
Notation run := (open_run servable base iter).
Notation gen := (generate base iter).
Lemma orun_snoc l a : run (l ++ [a]) = open_step servable base iter (run l) a.
Proof. unfold open_run. by rewrite foldl_app. Qed.
Lemma calls_snoc l a : calls_in (l ++ [a]) = calls_in l ++ match call_of a with Some c => [c] | None => [] end.
Proof. unfold calls_in. rewrite omap_app. cbn. by destruct (call_of a). Qed.
Lemma step_api s a : os_api (open_step servable base iter s a) = match call_of a with Some c => (rstep servable (os_api s) c).1 | None => os_api s end.
Proof.
  destruct a as [g l|g|v|k]; cbn [open_step call_of rstep fst].
  - unfold open_register. destruct (register_group _ _ _ _) as [a []]; cbn; try done. by destruct (is_view_group g).
  - unfold open_unregister, unregister_group. destruct (registered (os_api s) !! g); done.
  - done.
  - unfold req_step. destruct (os_reqs s !! k) as [[]|]; try done. by destruct v.
Qed.
Lemma run_api l : os_api (run l) = (rrun servable api_new (calls_in l)).1.
Proof.
  induction l as [|a l IH] using rev_ind; [done|]. rewrite orun_snoc, step_api, calls_snoc, IH. destruct (call_of a) as [c|]; [by rewrite rrun_app|by rewrite app_nil_r].
Qed.
Definition reg (l : list oact) : gmap string (list gvk) := registered (os_api (run l)).
Definition pre_of (p l : list oact) : Prop := exists q, l = p ++ q.
(** Everything that is kept was generated for the kinds of some earlier moment. *)
Definition old (l : list oact) (d : odefs) : Prop := exists p k, pre_of p l /\ d = gen k (reg p).
Record past (l : list oact) : Prop := {
  pa_cache : forall v d, cached v (run l) = Some d -> old l d;
  pa_made : forall k v d, os_reqs (run l) !! k = Some (Made v d) -> old l d;
  pa_answer : forall k d, os_reqs (run l) !! k = Some (Answered d) -> old l d }.
Lemma pre_snoc p l a : pre_of p l -> pre_of p (l ++ [a]).
Proof. intros [q ->]. exists (q ++ [a]). by rewrite app_assoc. Qed.
Lemma old_snoc l a d : old l d -> old (l ++ [a]) d.
Proof. intros (p & k & H & ->). exists p, k. split; [by apply pre_snoc|done]. Qed.
(** The effect of the steps that are not steps of requests *)
Lemma call_frame s a : is_Some (call_of a) -> os_reqs (open_step servable base iter s a) = os_reqs s /\
  ((forall v, cached v (open_step servable base iter s a) = None) \/ ((forall v, cached v (open_step servable base iter s a) = cached v s) /\ registered (os_api (open_step servable base iter s a)) = registered (os_api s))).
Proof.
  intros [c Hc]. destruct a as [g l|g|v|k]; try done; cbn [open_step].
  - unfold open_register. destruct (register_group servable (os_api s) g l) as [a o] eqn:E. assert (R : (o = Done /\ is_view_group g = true) \/ registered a = registered (os_api s)).
    { unfold register_group in E. destruct (is_view_group g); cbn [negb] in E; [|injection E as <- _; by right]. destruct (add_types_to_scheme _ _) as [sch []]; cbn [negb] in E; [|injection E as <- _; by right].
      destruct (add_storages _ _ _) as [st []]; cbn [negb] in E; [|injection E as <- _; by right]. destruct l; [injection E as <- _; by right|]. injection E as _ <-. by left. }
    destruct o; [destruct (is_view_group g) eqn:G|..]; cbn [os_reqs os_api].
    + split; [done|]. left. by intros [].
    + split; [done|]. right. split; [by intros []|]. by destruct R as [[_ ?]|R].
    + split; [done|]. right. split; [by intros []|]. by destruct R as [[? _]|R].
    + split; [done|]. right. split; [by intros []|]. by destruct R as [[? _]|R].
  - unfold open_unregister. destruct (registered (os_api s) !! g) as [l|] eqn:E; cbn [os_reqs os_api]; (split; [done|]); [left; by intros []|by right].
Qed.
Lemma past_all l : past l.
Proof.
  induction l as [|a l IH] using rev_ind; [constructor; intros *; cbn; try done; by destruct v|]. destruct IH as [I1 I2 I3].
  destruct (call_of a) as [c|] eqn:Ec.
  - destruct (call_frame (run l) a) as [Er Ek]; [by rewrite Ec|]. constructor; rewrite orun_snoc.
    + intros v d. destruct Ek as [Ek|[Ek _]]; rewrite Ek; [done|]. intros H. apply old_snoc. by eapply I1.
    + intros k v d. rewrite Er. intros H. apply old_snoc. by eapply I2.
    + intros k d. rewrite Er. intros H. apply old_snoc. by eapply I3.
  - destruct a as [| |v|k]; try done.
    + constructor; rewrite orun_snoc; cbn [open_step cached os_v2 os_v3 os_reqs].
      * intros w d H. apply old_snoc. apply (I1 w). by destruct w.
      * intros k w d H. apply old_snoc. apply lookup_app_Some in H as [H|[_ H]]; [by eapply I2|]. apply list_lookup_singleton_Some in H as [_ H]. done.
      * intros k d H. apply old_snoc. apply lookup_app_Some in H as [H|[_ H]]; [by eapply I3|]. apply list_lookup_singleton_Some in H as [_ H]. done.
    + assert (G : forall r s, os_reqs s = os_reqs (run l) -> (forall v d, cached v s = Some d -> old l d) -> match r with Made _ d | Answered d => old l d | _ => True end ->
        os_reqs (run (l ++ [OStep k])) = <[k := r]> (os_reqs s) -> (forall v, cached v (run (l ++ [OStep k])) = cached v s) -> past (l ++ [OStep k])).
      { intros r s Es Hs Hr E1 E2. constructor.
        - intros v d. rewrite E2. intros H. apply old_snoc. by eapply Hs.
        - intros j v d. rewrite E1, Es. intros H. apply old_snoc. apply list_lookup_insert_Some in H as [(_ & -> & _)|[_ H]]; [done|by eapply I2].
        - intros j d. rewrite E1, Es. intros H. apply old_snoc. apply list_lookup_insert_Some in H as [(_ & -> & _)|[_ H]]; [done|by eapply I3]. }
      destruct (os_reqs (run l) !! k) as [[v|v|v d|d]|] eqn:E.
      * refine (G (match cached v (run l) with Some d => Answered d | None => Missed v end) (run l) eq_refl I1 _ _ _).
        -- destruct (cached v (run l)) eqn:Ev; [by eapply I1|done].
        -- rewrite orun_snoc. cbn [open_step]. unfold req_step. by rewrite E.
        -- intros w. rewrite orun_snoc. cbn [open_step]. unfold req_step. rewrite E. by destruct w.
      * refine (G (Made v (gen k (reg l))) (run l) eq_refl I1 _ _ _).
        -- exists l, k. split; [exists []; by rewrite app_nil_r|done].
        -- rewrite orun_snoc. cbn [open_step]. unfold req_step. by rewrite E.
        -- intros w. rewrite orun_snoc. cbn [open_step]. unfold req_step. rewrite E. by destruct w.
      * refine (G (Answered d) (store v d (run l)) _ _ _ _ _).
        -- by destruct v.
        -- intros w e. destruct v, w; cbn [store cached os_v2 os_v3]; first [intros [= <-]; by eapply I2|intros H; by apply (I1 V2)|intros H; by apply (I1 V3)].
        -- by eapply I2.
        -- rewrite orun_snoc. cbn [open_step]. unfold req_step. rewrite E. done.
        -- intros w. rewrite orun_snoc. cbn [open_step]. unfold req_step. rewrite E. by destruct w.
      * assert (Er : run (l ++ [OStep k]) = run l) by (rewrite orun_snoc; cbn [open_step]; unfold req_step; by rewrite E). constructor; rewrite Er; intros; apply old_snoc; eauto.
      * assert (Er : run (l ++ [OStep k]) = run l) by (rewrite orun_snoc; cbn [open_step]; unfold req_step; by rewrite E). constructor; rewrite Er; intros; apply old_snoc; eauto.
Qed.
(** If kinds are registered only while no request generates, what is kept is current. *)
Definition fresh (l : list oact) (d : odefs) : Prop := exists k, d = gen k (reg l).
Lemma undisturbed_pre l a : undisturbed run (l ++ [a]) -> undisturbed run l /\ (is_Some (call_of a) -> idle (run l)).
Proof.
  intros U. split; [|intros H; by apply (U l a [])]. intros p b q -> H. apply (U p b (q ++ [a])); [|done]. by rewrite <- app_assoc.
Qed.
Lemma reg_snoc l a : call_of a = None -> reg (l ++ [a]) = reg l.
Proof. intros E. unfold reg. rewrite orun_snoc, step_api, E. done. Qed.
Lemma fresh_snoc l a d : call_of a = None -> fresh l d -> fresh (l ++ [a]) d.
Proof. intros E [k ->]. exists k. by rewrite reg_snoc. Qed.
Lemma present l : undisturbed run l -> (forall v d, cached v (run l) = Some d -> fresh l d) /\ (forall k v d, os_reqs (run l) !! k = Some (Made v d) -> fresh l d).
Proof.
  induction l as [|a l IH] using rev_ind; [intros _; split; intros *; cbn; try done; by destruct v|]. intros U. apply undisturbed_pre in U as [U Ui]. destruct (IH U) as [I1 I2].
  destruct (call_of a) as [c|] eqn:Ec.
  - destruct (call_frame (run l) a) as [Er Ek]; [by rewrite Ec|]. split.
    + intros v d. rewrite orun_snoc. destruct Ek as [Ek|[Ek Eg]]; rewrite Ek; [done|]. intros H. destruct (I1 v d H) as [k ->]. exists k. unfold reg. by rewrite orun_snoc, Eg.
    + intros k v d. rewrite orun_snoc, Er. intros H. exfalso. apply (Ui ltac:(by eexists) k _ H).
  - destruct a as [| |v|k]; try done.
    + split.
      * intros w d H. apply fresh_snoc; [done|]. apply (I1 w). rewrite orun_snoc in H. by destruct w.
      * intros k w d H. apply fresh_snoc; [done|]. rewrite orun_snoc in H. cbn [open_step os_reqs] in H. apply lookup_app_Some in H as [H|[_ H]]; [by eapply I2|]. apply list_lookup_singleton_Some in H as [_ H]. done.
    + split.
      * intros w d H. apply fresh_snoc; [done|]. rewrite orun_snoc in H. cbn [open_step] in H. unfold req_step in H. destruct (os_reqs (run l) !! k) as [[v|v|v e|e]|] eqn:E; try (apply (I1 w); by destruct w).
        destruct v, w; cbn in H; first [injection H as <-; by eapply I2|by apply (I1 V2)|by apply (I1 V3)].
      * intros j w d H. apply fresh_snoc; [done|]. rewrite orun_snoc in H. cbn [open_step] in H. unfold req_step in H. destruct (os_reqs (run l) !! k) as [[v|v|v e|e]|] eqn:E; cbn [os_reqs] in H; try (by eapply I2).
        -- apply list_lookup_insert_Some in H as [(_ & H & _)|[_ H]]; [|by eapply I2]. by destruct (cached v (run l)).
        -- apply list_lookup_insert_Some in H as [(_ & H & _)|[_ H]]; [|by eapply I2]. injection H as _ <-. by exists k.
        -- apply list_lookup_insert_Some in H as [(_ & H & _)|[_ H]]; [done|]. destruct v; by eapply I2.
Qed.
Lemma answered_fresh l k d : undisturbed run l -> os_reqs (run (l ++ [OStep k])) !! k = Some (Answered d) -> (forall e, os_reqs (run l) !! k <> Some (Answered e)) -> fresh l d.
Proof.
  intros U H N. destruct (present l U) as [I1 I2]. rewrite orun_snoc in H. cbn [open_step] in H. unfold req_step in H. destruct (os_reqs (run l) !! k) as [[v|v|v e|e]|] eqn:E; cbn [os_reqs] in H.
  - rewrite list_lookup_insert in H by (by eapply lookup_lt_Some). injection H as H. destruct (cached v (run l)) eqn:Ev; [|done]. injection H as <-. by eapply I1.
  - rewrite list_lookup_insert in H by (by eapply lookup_lt_Some). done.
  - assert (El : os_reqs (store v e (run l)) = os_reqs (run l)) by (by destruct v). rewrite El, list_lookup_insert in H by (by eapply lookup_lt_Some). injection H as <-. by eapply I2.
  - by destruct (N e).
  - by rewrite E in H.
Qed.

(** The kinds of the registry *)
Lemma calls_prefix cs cs' : calls_ok servable (cs ++ cs') -> calls_ok servable cs.
Proof.
  intros [H1 H2]. assert (M : forall x, ever cs x -> ever (cs ++ cs') x) by (intros x (c & Hc & Hx); exists c; split; [apply elem_of_app; by left|done]).
  split; [intros c Hc; apply H1, elem_of_app; by left|]. intros x Hx. destruct (H2 x (M x Hx)) as (A & B & C & D). split_and!; [done..|]. intros y Hy. by apply D, M.
Qed.
Lemma dotless_prefix cs cs' : dotless (cs ++ cs') -> dotless cs.
Proof. intros H x (c & Hc & Hx). apply H. exists c. split; [apply elem_of_app; by left|done]. Qed.
Lemma among_current l : calls_ok servable (calls_in l) -> forall x, among (reg l) x <-> current (calls_in l) x.
Proof.
  intros OK x. destruct (run_ok servable (calls_in l) OK) as (cur & I & _ & Ag & _). unfold among, reg. rewrite run_api. split.
  - intros (g & k & E & Hx). rewrite (inv_reg _ _ _ I g) in E. assert (Hc : x ∈ cur g) by (destruct (cur g) eqn:Ec; [done|]; injection E as <-; done).
    destruct (inv_cur _ _ _ I g x Hc) as (G & _). exists g. split; [by apply vgn|]. by rewrite <- (Ag g G).
  - intros (g & G & Hx). apply vgn in G. rewrite <- (Ag g G) in Hx. exists g, (cur g). rewrite (inv_reg _ _ _ I g). split; [|done]. destruct (cur g); [by apply elem_of_nil in Hx|done].
Qed.
Lemma current_viewish cs x : calls_ok servable cs -> dotless cs -> current cs x -> viewish x.
Proof.
  intros OK Hd (g & G & Hx). assert (G' := G). apply vgn in G. destruct (latest_view servable cs g x OK G Hx) as (<- & He & Hv). split_and!; [done|done|by apply Hd].
Qed.
Lemma describes_ext K K' d : (forall x, K x <-> K' x) -> describes base K d -> describes base K' d.
Proof.
  intros E [H1 H2 H3 H4]. constructor.
  - intros x Hx. by apply H1, E.
  - intros x Hx. by apply H2, E.
  - intros n x H. destruct (H3 n x H) as [?|[?|(y & ? & ?)]]; [by left|right; left; by apply E|right; right; exists y; split; [by apply E|done]].
  - intros n D H. destruct (H4 n D H) as [?|[?|[?|(x & ? & ?)]]]; [by left|auto..|]. right. right. right. exists x. split; [by apply E|done].
Qed.
Hypothesis Hit : iterates iter.
Lemma gen_current l k : calls_ok servable (calls_in l) -> dotless (calls_in l) -> describes base (current (calls_in l)) (gen k (reg l)).
Proof.
  intros OK Hd. apply (describes_ext (among (reg l))); [by apply among_current|]. apply generate_describes; [done|]. intros x Hx. apply (current_viewish (calls_in l)); [done..|]. by apply among_current.
Qed.
End run.
