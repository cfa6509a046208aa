From Verif Require Import RegistryModel RegistrySpec GroupProofs RegistryProofs.

Section run.
Variable servable : gvk -> bool.
Variable M : gvk -> Prop.
Hypothesis KO : kinds_ok servable M.
Notation inv := (inv M).

Definition agrees (f : string -> list gvk) (cur : string -> list gvk) : Prop := forall g, is_view_group g = true -> cur g = f g.

Lemma many_register l o : (forall x, x ∈ l -> is_view_group (gvk_group x) = true -> M x) -> (forall g, g ∈ o -> in_group g l <> []) -> NoDup o -> forall cur s, inv cur s ->
  exists cur', inv cur' (register_gvks servable o s l).1 /\ (register_gvks servable o s l).2 = Done /\
    agrees (fun g => if decide (g ∈ o) then in_group g l else cur g) cur' /\
    (exact cur s -> (forall g x, is_view_group g = true -> g ∈ o -> x ∈ cur g -> x ∈ in_group g l) -> exact cur' (register_gvks servable o s l).1).
Proof.
  intros HM. induction o as [|g o IH]; intros HO ND cur s I.
  { exists cur. split; [done|]. split; [done|]. split; [|done]. intros g _. rewrite decide_False; [done|]. apply not_elem_of_nil. }
  apply NoDup_cons in ND. destruct ND as [Ng ND].
  assert (HO' : forall g0, g0 ∈ o -> in_group g0 l <> []) by (intros; apply HO; by right).
  cbn [register_gvks]. rewrite in_group_of. destruct (is_view_group g) eqn:G.
  - assert (GOK : gok M (RG g (in_group g l))).
    { split; [done|]. split; [apply HO; left|]. intros x Hx. apply elem_in_group in Hx. destruct Hx as [Hx Gx]. split; [done|]. apply HM; [done|by rewrite Gx]. }
    pose proof (register_done servable M KO cur s _ _ I GOK) as D. pose proof (inv_register servable M KO cur s _ _ I GOK) as I'.
    pose proof (exact_register servable M KO cur s g (in_group g l) I) as X'.
    destruct (register_group servable s g (in_group g l)) as [s' out]. cbn in D, I', X'. subst out.
    destruct (IH HO' ND _ _ I') as (cur' & A & B & C & DD). exists cur'. split; [done|]. split; [done|]. split.
    + intros g' G'. rewrite (C g' G'). destruct (decide (g' ∈ g :: o)) as [E|E].
      * destruct (decide (g' ∈ o)) as [E'|E']; [done|]. apply elem_of_cons in E. destruct E as [->|E]; [by rewrite upd_eq|done].
      * apply not_elem_of_cons in E. destruct E as [E E']. rewrite decide_False by done. by rewrite upd_ne.
    + intros X H. apply DD.
      * apply X'; [done|done|]. intros x Hx. apply H; [done|left|done].
      * intros g' x G' Hg Hx. rewrite upd_ne in Hx by (intros ->; done). apply H; [done|by right|done].
  - assert (E : register_group servable s g (in_group g l) = (s, Done)) by (unfold register_group; by rewrite G). rewrite E.
    destruct (IH HO' ND _ _ I) as (cur' & A & B & C & D). exists cur'. split; [done|]. split; [done|]. split.
    + intros g' G'. rewrite (C g' G'). assert (g' <> g) by congruence. destruct (decide (g' ∈ o)) as [E'|E'].
      * rewrite decide_True by (by right). done.
      * rewrite decide_False; [done|]. intros Q. apply elem_of_cons in Q. by destruct Q.
    + intros X H. apply D; [done|]. intros g' x G' Hg Hx. apply H; [done|by right|done].
Qed.
Lemma many_unregister o : forall cur s, inv cur s ->
  exists cur', inv cur' (unregister_gvks o s) /\ agrees (fun g => if decide (g ∈ o) then [] else cur g) cur' /\ (exact cur s -> exact cur' (unregister_gvks o s)).
Proof.
  induction o as [|g o IH]; intros cur s I.
  { exists cur. split; [done|]. split; [|done]. intros g _. rewrite decide_False; [done|]. apply not_elem_of_nil. }
  cbn [unregister_gvks]. destruct (IH _ _ (inv_unregister servable M KO cur s g I)) as (cur' & A & B & C). exists cur'. split; [done|]. split.
  - intros g' G'. rewrite (B g' G'). destruct (decide (g' ∈ g :: o)) as [E|E].
    + destruct (decide (g' ∈ o)); [done|]. apply elem_of_cons in E. destruct E as [->|E]; [by rewrite upd_eq|done].
    + apply not_elem_of_cons in E. destruct E. rewrite decide_False by done. by rewrite upd_ne.
  - intros X. apply C. by apply (exact_unregister servable M KO).
Qed.

Lemma call_step cur s c : inv cur s -> call_ok c -> (forall x, names c x -> M x) ->
  exists cur', inv cur' (rstep servable s c).1 /\ (rstep servable s c).2 = Done /\ agrees (fun g => latest_step g (cur g) c) cur' /\
    (exact cur s -> (forall g x, is_view_group g = true -> x ∈ cur g -> latest_step g (cur g) c = [] \/ x ∈ latest_step g (cur g) c) -> exact cur' (rstep servable s c).1).
Proof.
  intros I CO HN. destruct c as [g l|g|o l|o l]; cbn [rstep latest_step call_ok] in *.
  - destruct CO as [N CO]. destruct (is_view_group g) eqn:G.
    + assert (GOK : gok M (RG g l)).
      { split; [done|]. split; [done|]. intros x Hx. split; [by apply CO|]. apply HN. split; [|done]. apply vgn. by rewrite (CO x Hx). }
      exists (upd cur g l). split; [by apply inv_register|]. split; [by eapply register_done|]. split.
      * intros g' _. unfold upd. destruct (decide (g' = g)) as [->|E]; [by rewrite decide_True|]. by rewrite decide_False.
      * intros X H. apply (exact_register servable M KO); [exact I|exact X|exact GOK|]. intros x Hx. destruct (H g x G Hx) as [E|E]; rewrite decide_True in E by done; [by subst l|exact E].
    + assert (E : register_group servable s g l = (s, Done)) by (unfold register_group; by rewrite G). rewrite E.
      exists cur. split; [done|]. split; [done|]. split; [|done]. intros g' G'. rewrite decide_False; [done|]. congruence.
  - exists (upd cur g []). split; [by eapply inv_unregister|]. split; [done|]. split.
    + intros g' _. unfold upd. destruct (decide (g' = g)) as [->|E]; [by rewrite decide_True|]. by rewrite decide_False.
    + intros X _. by apply (exact_unregister servable M KO).
  - destruct CO as [ND CO].
    assert (OI : forall g, g ∈ o <-> in_group g l <> []).
    { intros g. rewrite (CO g). split.
      - intros (x & Hx & Gx) E. rewrite in_group_nil in E. by apply (E x).
      - intros H. destruct (in_group g l) as [|x l'] eqn:E; [done|]. exists x. apply elem_in_group. rewrite E. left. }
    destruct (many_register l o) with (cur := cur) (s := s) as (cur' & A & B & C & D); [|by apply OI|done|done|].
    { intros x Hx Gx. apply HN. split; [by apply vgn|done]. }
    exists cur'. split; [done|]. split; [done|]. split.
    + intros g G. rewrite (C g G). destruct (decide (g ∈ o)) as [E|E].
      * apply OI in E. by destruct (in_group g l).
      * destruct (in_group g l) eqn:E'; [done|]. exfalso. apply E, OI. by rewrite E'.
    + intros X H. apply D; [done|]. intros g x G Hg Hx. apply OI in Hg. specialize (H g x G Hx).
      destruct (in_group g l) eqn:E'; [done|]. by destruct H.
  - destruct CO as [ND CO]. destruct (many_unregister o cur s I) as (cur' & A & B & C). exists cur'. split; [done|]. split; [done|]. split.
    + intros g G. rewrite (B g G). destruct (decide (g ∈ o)) as [E|E].
      * apply CO in E. destruct E as (x & Hx & Gx). destruct (in_group g l) eqn:E'; [|done]. rewrite in_group_nil in E'. by destruct (E' x).
      * destruct (in_group g l) as [|x l'] eqn:E'; [done|]. exfalso. apply E, CO. exists x. apply elem_in_group. rewrite E'. left.
    + intros X _. by apply C.
Qed.

Lemma latest_snoc cs c g : latest (cs ++ [c]) g = latest_step g (latest cs g) c.
Proof. unfold latest. by rewrite fold_left_app. Qed.
Lemma latest_step_ext g a b c : a = b -> latest_step g a c = latest_step g b c.
Proof. by intros ->. Qed.
Lemma run_inv cs : forall pre cur s, inv cur s -> agrees (latest pre) cur ->
  (forall c, c ∈ cs -> call_ok c) -> (forall c x, c ∈ cs -> names c x -> M x) ->
  exists cur', inv cur' (rrun servable s cs).1 /\ Forall (eq Done) (rrun servable s cs).2 /\ agrees (latest (pre ++ cs)) cur' /\
    (exact cur s -> (forall cs1 c cs2 g x, cs = cs1 ++ c :: cs2 -> x ∈ latest (pre ++ cs1) g -> latest (pre ++ cs1 ++ [c]) g = [] \/ x ∈ latest (pre ++ cs1 ++ [c]) g) ->
     exact cur' (rrun servable s cs).1).
Proof.
  induction cs as [|c cs IH]; intros pre cur s I Hcur CO HN.
  { exists cur. rewrite app_nil_r. cbn. done. }
  cbn [rrun]. destruct (call_step cur s c I) as (cur1 & A & B & C & D); [apply CO; left|intros; eapply HN; [left|done]|].
  destruct (rstep servable s c) as [s1 o1]. cbn in A, B, D. subst o1.
  assert (C' : agrees (latest (pre ++ [c])) cur1).
  { intros g G. rewrite (C g G), latest_snoc. apply latest_step_ext. by apply Hcur. }
  destruct (IH (pre ++ [c]) cur1 s1 A C') as (cur' & A1 & B1 & C1 & D1); [intros; apply CO; by right|intros; eapply HN; [by right|done]|].
  destruct (rrun servable s1 cs) as [s2 os]. cbn in *. exists cur'. split; [done|]. split; [by constructor|]. split; [by rewrite <- app_assoc in C1|].
  intros X H. apply D1.
  - apply D; [done|]. intros g x G Hx. rewrite (Hcur g G) in *. rewrite <- latest_snoc.
    apply (H [] c cs g x); [done|]. by rewrite app_nil_r.
  - intros cs1 c' cs2 g x -> Hx. rewrite <- !app_assoc in *. cbn [app] in *. apply (H (c :: cs1) c' cs2 g x); [done|done].
Qed.
End run.

Section results.
Variable servable : gvk -> bool.
Lemma run_ok cs : calls_ok servable cs ->
  exists cur, inv (ever cs) cur (rrun servable api_new cs).1 /\ Forall (eq Done) (rrun servable api_new cs).2 /\ agrees (latest cs) cur /\
    (never_drops cs -> exact cur (rrun servable api_new cs).1).
Proof.
  intros [CO KO]. destruct (run_inv servable (ever cs) KO cs [] (fun _ => []) api_new) as (cur & A & B & C & D).
  - apply inv_new. - done. - done. - intros c x Hc Hx. by exists c.
  - exists cur. split; [done|]. split; [done|]. split; [done|]. intros ND. apply D.
    + intros k x. cbn. by rewrite lookup_empty.
    + intros cs1 c cs2 g x E Hx. by eapply ND.
Qed.
Lemma served_storage s g v r x : served_by s g v r x <-> is_view_group g = true /\ storage s !! (g, v, r) = Some x.
Proof.
  unfold served_by, serve_http. cbn [q_group q_version q_resource q_sub q_verb]. destruct (is_view_group g); [|by split; [|intros []]]. cbn [negb].
  destruct (storage s !! (g, v, r)) as [y|]; [|by split; [|intros []]]. rewrite decide_False by (intros H; by apply H).
  rewrite decide_True by left. split; [by intros [= ->]|by intros [_ [= ->]]].
Qed.
Lemma latest_view cs g x : calls_ok servable cs -> is_view_group g = true -> x ∈ latest cs g -> gvk_group x = g /\ ever cs x /\ gvk_version x = "v1alpha1"%string.
Proof.
  intros OK G Hx. destruct (run_ok cs OK) as (cur & I & _ & C & _). rewrite <- (C g G) in Hx. destruct (inv_cur _ _ _ I g x Hx) as (_ & Gx & E).
  split; [done|]. split; [done|]. by destruct (ok_kinds _ _ OK x E).
Qed.
Lemma current_served cs g x : calls_ok servable cs -> is_view_group g = true -> x ∈ latest cs g ->
  exists y, y ∈ latest cs g /\ lower (gvk_kind y) = lower (gvk_kind x) /\ served_by (rrun servable api_new cs).1 g "v1alpha1" (lower (gvk_kind x)) y.
Proof.
  intros OK G Hx. destruct (run_ok cs OK) as (cur & I & _ & C & _). rewrite <- (C g G) in *. destruct (inv_has _ _ _ I g x Hx) as (y & Hy & E).
  destruct (inv_cur _ _ _ I g x Hx) as (_ & Gx & _). exists y. split; [done|]. destruct (inv_only _ _ _ I _ _ E) as (Q & _ & _).
  injection Q as _ Q. split; [done|]. apply served_storage. split; [done|]. unfold resource_of in E. by rewrite Gx in E.
Qed.
Lemma served_ever cs g v r x : calls_ok servable cs -> served_by (rrun servable api_new cs).1 g v r x ->
  ever cs x /\ gvk_group x = g /\ v = "v1alpha1"%string /\ r = lower (gvk_kind x).
Proof.
  intros OK H. apply served_storage in H. destruct H as [G H]. destruct (run_ok cs OK) as (cur & I & _).
  destruct (inv_only _ _ _ I _ _ H) as (Q & _ & E). injection Q as -> -> ->. done.
Qed.
Lemma served_current cs g v r x : calls_ok servable cs -> never_drops cs -> served_by (rrun servable api_new cs).1 g v r x -> x ∈ latest cs g.
Proof.
  intros OK ND H. destruct (served_ever _ _ _ _ _ OK H) as (_ & Gx & _). apply served_storage in H. destruct H as [G H].
  destruct (run_ok cs OK) as (cur & I & _ & C & D). rewrite <- (C g G), <- Gx. by apply (D ND) in H.
Qed.
Lemma discovered cs g : calls_ok servable cs -> is_view_group g = true ->
  let s := (rrun servable api_new cs).1 in
  discover_version s g "v1alpha1" = expected (latest cs g) /\ discover_aggregated s g "v1alpha1" = expected (latest cs g) /\
  discover_group s g = match latest cs g with [] => None | _ => Some ["v1alpha1"%string] end.
Proof.
  intros OK G s. destruct (run_ok cs OK) as (cur & I & _ & C & _). rewrite <- (C g G). split; [apply (inv_versions _ _ _ I)|]. split; [apply (inv_aggr _ _ _ I)|].
  apply (inv_groups _ _ _ I).
Qed.
End results.
