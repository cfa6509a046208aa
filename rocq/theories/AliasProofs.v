(** The view cache on memory behaves as the one on values. *)
From Verif Require Import AliasModel AliasSpec ViewSpec ViewModel.

Local Open Scope nat_scope.
(** What an object in memory is for. *)
Inductive role := Internal | Private (i : nat) | Shared | Public.
Definition may_hold (r : role) (u : user) : Prop :=
  match r with Internal => False | Private i => u = Handler i | Shared => exists j, u = Handler j | Public => True end.

Section alias.
#[local] Arguments at_ : simpl never.
Variable hash : string -> string.
Variable keys : gset string -> list string.
Variable react : nat -> msys -> mevent -> list (nat * jobj).
Variable bad : nat -> Prop.
Hypothesis Hreact : forall i, bad i \/ forall s e, react i s e = [].
Notation lister := (key_lister keys).
Notation size s := (length (ms_mem s)).

Definition may (u : user) : Prop := match u with Caller _ => True | Handler i => bad i end.
Definition full : Prop := forall j, ~ bad j.
Definition mine (s : msys) (ρ : nat -> role) (i : nat) (e : mevent) : Prop :=
  match e with
  | MAdd a | MDel a => a < size s /\ ρ a = Private i
  | MUpd o a => a < size s /\ ρ a = Private i /\ o < size s /\ ρ o = Shared
  end.
Definition shows (s : msys) (e : mevent) (w : wevent) : Prop :=
  match e, w with
  | MAdd a, WCreate m | MDel a, WDelete m => at_ s a = m
  | MUpd o a, WUpdate (Some mo) (Some m) => at_ s a = m /\ (full -> at_ s o = mo)
  | _, _ => False
  end.
Record inv (s : msys) (ρ : nat -> role) (c : caches) (log : nat -> list wevent) : Prop := Inv {
  inv_held : forall u a, (u, a) ∈ ms_held s -> a < size s /\ may_hold (ρ a) u;
  inv_free : forall x st k a, ms_store s !! x = Some st -> st !! k = Some a -> a < size s /\ ρ a = Internal;
  inv_cache : c = m_objects s;
  inv_log : forall i, ~ bad i -> Forall2 (fun e w => mine s ρ i e /\ shows s e w) (ms_log s i) (log i) }.
(** What a piece of code leaves alone. *)
Record keeps (s : msys) (ρ : nat -> role) (s' : msys) (ρ' : nat -> role) : Prop := Keeps {
  k_size : size s <= size s';
  k_role : forall a, a < size s -> ρ' a = ρ a;
  k_int : forall a, a < size s -> ρ a = Internal -> at_ s' a = at_ s a;
  k_shr : forall a, a < size s -> ρ a = Shared -> full -> at_ s' a = at_ s a;
  k_hs : ms_handlers s' = ms_handlers s;
  k_next : ms_next s' = ms_next s }.
Lemma keeps_refl s ρ : keeps s ρ s ρ.
Proof. split; auto. Qed.
Lemma keeps_trans s1 ρ1 s2 ρ2 s3 ρ3 : keeps s1 ρ1 s2 ρ2 -> keeps s2 ρ2 s3 ρ3 -> keeps s1 ρ1 s3 ρ3.
Proof.
  intros [A1 A2 A3 A4 A5 A6] [B1 B2 B3 B4 B5 B6]. split; try congruence; try lia.
  - intros a Ha. rewrite B2 by lia. auto.
  - intros a Ha Hr. rewrite B3; [auto|lia|]. rewrite A2; auto.
  - intros a Ha Hr Hf. rewrite B4; [auto|lia| |exact Hf]. rewrite A2; auto.
Qed.

Lemma inv_ext s ρ c log log' : (forall i, log i = log' i) -> inv s ρ c log -> inv s ρ c log'.
Proof. intros E [H1 H2 H3 H4]. split; auto. intros i Hi. rewrite <- E. auto. Qed.

Lemma objects_eq s s' :
  ms_store s' = ms_store s -> (forall x st k a, ms_store s !! x = Some st -> st !! k = Some a -> at_ s' a = at_ s a) ->
  m_objects s' = m_objects s.
Proof.
  intros E H. unfold m_objects. rewrite E. apply map_fmap_ext. intros x st Hx.
  apply map_fmap_ext. intros k a Hk. eauto.
Qed.

Lemma at_snoc s m a : a < size s -> at_ (with_mem s (ms_mem s ++ [m])) a = at_ s a.
Proof. intros H. unfold at_, with_mem. cbn [ms_mem]. rewrite lookup_app_l by lia. reflexivity. Qed.
Lemma at_new s m : at_ (with_mem s (ms_mem s ++ [m])) (size s) = m.
Proof. unfold at_, with_mem. cbn [ms_mem]. rewrite lookup_app_r, Nat.sub_diag by lia. reflexivity. Qed.

(** The logs stay right if the objects of events keep their role and value. *)
Lemma logs_keep s s' ρ ρ' (log : nat -> list wevent) i :
  size s <= size s' -> (forall a, a < size s -> ρ' a = ρ a) ->
  (forall a, a < size s -> ρ a = Private i -> at_ s' a = at_ s a) ->
  (forall a, a < size s -> ρ a = Shared -> full -> at_ s' a = at_ s a) ->
  Forall2 (fun e w => mine s ρ i e /\ shows s e w) (ms_log s i) (log i) ->
  Forall2 (fun e w => mine s' ρ' i e /\ shows s' e w) (ms_log s i) (log i).
Proof.
  intros L R P S H. eapply Forall2_impl; [exact H|]. intros e w [Hm Hw].
  destruct e as [a|o a|a], w as [w1|[w1|] [w2|]|w1|w1]; cbn in *; try contradiction.
  - destruct Hm as [Ha Hr]. rewrite R, P by auto. split; [split; [lia|auto]|exact Hw].
  - destruct Hm as (Ha & Hr & Ho & Hs), Hw as [Hw Hf]. rewrite !R, P by auto.
    split; [split_and!; auto; lia|]. split; [exact Hw|]. intros Hff. rewrite S by auto. auto.
  - destruct Hm as [Ha Hr]. rewrite R, P by auto. split; [split; [lia|auto]|exact Hw].
Qed.

Lemma new_inv s ρ c log m r :
  inv s ρ c log -> exists ρ',
  let '(s', b) := new_obj s m in
  inv s' ρ' c log /\ keeps s ρ s' ρ' /\ b < size s' /\ ρ' b = r /\ at_ s' b = m
  /\ (forall a, a < size s -> at_ s' a = at_ s a) /\ ms_store s' = ms_store s /\ ms_held s' = ms_held s.
Proof.
  intros [H1 H2 H3 H4]. set (ρ' := fun a => if decide (a = size s) then r else ρ a). exists ρ'. unfold new_obj. cbv beta iota.
  assert (L : size (with_mem s (ms_mem s ++ [m])) = S (size s)) by (unfold with_mem; cbn; rewrite app_length; cbn; lia).
  assert (R : forall a, a < size s -> ρ' a = ρ a) by (intros a Ha; unfold ρ'; rewrite decide_False by lia; reflexivity).
  split_and!; try reflexivity.
  - split.
    + intros u a Ha. apply H1 in Ha. destruct Ha as [Ha Hr]. rewrite L, R by exact Ha. split; [lia|exact Hr].
    + intros x st k a Hx Hk. destruct (H2 x st k a Hx Hk) as [Ha Hr]. rewrite L, R by exact Ha. split; [lia|exact Hr].
    + rewrite H3. symmetry. apply objects_eq; [reflexivity|]. intros x st k a Hx Hk. apply at_snoc. eapply H2; eassumption.
    + intros i Hi. eapply (logs_keep s _ ρ ρ'); [rewrite L; lia|exact R| | |exact (H4 i Hi)]; intros; apply at_snoc; assumption.
  - split; try reflexivity; [rewrite L; lia|exact R| |]; intros; apply at_snoc; assumption.
  - rewrite L. lia.
  - unfold ρ'. rewrite decide_True by reflexivity. reflexivity.
  - apply at_new.
  - intros a Ha. apply at_snoc, Ha.
Qed.

Lemma scribble_inv s ρ c log u w :
  may u -> inv s ρ c log -> inv (scribble u s w) ρ c log /\ keeps s ρ (scribble u s w) ρ.
Proof.
  intros Hu HI. pose proof HI as [H1 H2 H3 H4]. unfold scribble. destruct (knows s u w.1) eqn:E; cycle 1.
  { split; [exact HI|apply keeps_refl]. }
  unfold knows in E. apply bool_decide_eq_true in E.
  assert (L : size (with_mem s (<[w.1 := w.2]> (ms_mem s))) = size s) by (unfold with_mem; cbn; apply insert_length).
  assert (K : forall a, ~ may_hold (ρ a) u -> at_ (with_mem s (<[w.1 := w.2]> (ms_mem s))) a = at_ s a).
  { intros a Ha. unfold at_, with_mem. cbn [ms_mem]. rewrite list_lookup_insert_ne; [reflexivity|].
    intros <-. apply Ha, H1, E. }
  assert (KI : forall a, ρ a = Internal -> ~ may_hold (ρ a) u) by (intros a ->; intros []).
  assert (KP : forall i a, ~ bad i -> ρ a = Private i -> ~ may_hold (ρ a) u).
  { intros i a Hi -> Hh. cbn in Hh. subst u. exact (Hi Hu). }
  assert (KS : forall a, full -> ρ a = Shared -> ~ may_hold (ρ a) u).
  { intros a Hf -> [j ->]. exact (Hf j Hu). }
  split.
  - split.
    + intros u' a Ha. rewrite L. exact (H1 u' a Ha).
    + intros x st k a Hx Hk. rewrite L. exact (H2 x st k a Hx Hk).
    + rewrite H3. symmetry. apply objects_eq; [reflexivity|]. intros x st k a Hx Hk. apply K, KI. eapply H2; eassumption.
    + intros i Hi. eapply (logs_keep s _ ρ ρ); [rewrite L; lia|auto| | |exact (H4 i Hi)]; intros; apply K; eauto.
  - split; [rewrite L; lia|reflexivity| | |reflexivity|reflexivity]; intros; apply K; eauto.
Qed.
Lemma scribbles_inv u l : forall s ρ c log,
  may u -> inv s ρ c log -> inv (foldl (scribble u) s l) ρ c log /\ keeps s ρ (foldl (scribble u) s l) ρ.
Proof.
  induction l as [|w l IH]; intros s ρ c log Hu HI; [split; [exact HI|apply keeps_refl]|].
  destruct (scribble_inv s ρ c log u w Hu HI) as (I1 & K1).
  destruct (IH _ ρ c log Hu I1) as (I2 & K2). split; [exact I2|]. eapply keeps_trans; eassumption.
Qed.

(** *** Handlers *)

Definition told_log (log : nat -> list wevent) (i : nat) (w : wevent) : nat -> list wevent := fun j => if decide (j = i) then log i ++ [w] else log j.
Lemma told_inv s ρ c log i e w :
  inv s ρ c log -> mine s ρ i e -> shows s e w -> inv (told s i e) ρ c (told_log log i w) /\ keeps s ρ (told s i e) ρ.
Proof.
  intros HI Hm Hs. pose proof HI as [H1 H2 H3 H4]. split; [|split; auto].
  split.
  - intros u a Ha. unfold told in Ha. cbn [ms_held] in Ha. apply elem_of_app in Ha. destruct Ha as [Ha|Ha]; [|exact (H1 u a Ha)].
    change (ms_mem (told s i e)) with (ms_mem s).
    destruct e as [b|o b|b]; cbn in Ha, Hm.
    + apply elem_of_list_singleton in Ha. injection Ha as -> ->. destruct Hm as [? ->]. cbn. auto.
    + apply elem_of_cons in Ha. destruct Hm as (? & Hb & ? & Ho). destruct Ha as [Ha|Ha].
      * injection Ha as -> ->. rewrite Ho. cbn. eauto.
      * apply elem_of_list_singleton in Ha. injection Ha as -> ->. rewrite Hb. cbn. auto.
    + apply elem_of_list_singleton in Ha. injection Ha as -> ->. destruct Hm as [? ->]. cbn. auto.
  - exact H2.
  - exact H3.
  - intros j Hj. unfold told, told_log. cbn [ms_log]. destruct (decide (j = i)) as [->|Hne].
    + apply Forall2_app; [exact (H4 i Hj)|]. constructor; [|constructor]. split; [exact Hm|exact Hs].
    + exact (H4 j Hj).
Qed.

(** The event that the cache announces. *)
Definition ready (s : msys) (ρ : nat -> role) (e : mevent) (w : wevent) : Prop :=
  match e, w with
  | MAdd a, WCreate m | MDel a, WDelete m => a < size s /\ ρ a = Internal /\ at_ s a = m
  | MUpd o a, WUpdate (Some mo) (Some m) => a < size s /\ ρ a = Internal /\ at_ s a = m /\ o < size s /\ ρ o = Shared /\ (full -> at_ s o = mo)
  | _, _ => False
  end.
Lemma ready_keeps s ρ s' ρ' e w : keeps s ρ s' ρ' -> ready s ρ e w -> ready s' ρ' e w.
Proof.
  intros [A1 A2 A3 A4 A5 A6] H. destruct e as [a|o a|a], w as [w1|[w1|] [w2|]|w1|w1]; cbn in *; try contradiction.
  - destruct H as (H1 & H2 & H3). rewrite A2, A3 by auto. split_and!; auto; lia.
  - destruct H as (H1 & H2 & H3 & H4 & H5 & H6). rewrite !A2, A3 by auto. split_and!; auto; try lia.
    intros Hf. rewrite A4 by auto. auto.
  - destruct H as (H1 & H2 & H3). rewrite A2, A3 by auto. split_and!; auto; lia.
Qed.

Lemma notify_inv s ρ c log e w i :
  inv s ρ c log -> ready s ρ e w -> exists ρ',
  inv (notify react e s i) ρ' c (told_log log i (copied w)) /\ keeps s ρ (notify react e s i) ρ'.
Proof.
  intros HI Hr.
  assert (T : exists s1 e1 ρ1,
      (match e with
       | MAdd a => let '(s, b) := copy_obj s a in (s, MAdd b)
       | MUpd o a => let '(s, b) := copy_obj s a in (s, MUpd o b)
       | MDel a => let '(s, b) := copy_obj s a in (s, MDel b) end) = (s1, e1)
      /\ inv s1 ρ1 c log /\ keeps s ρ s1 ρ1 /\ mine s1 ρ1 i e1 /\ shows s1 e1 (copied w)).
  { set (a := match e with MAdd a | MDel a | MUpd _ a => a end).
    destruct (new_inv s ρ c log (obj_copy (at_ s a)) (Private i) HI) as (ρ1 & HN).
    destruct (new_obj s (obj_copy (at_ s a))) as [s1 b] eqn:EN.
    destruct HN as (I1 & K1 & B1 & B2 & B3 & B4 & B5 & B6).
    unfold copy_obj.
    destruct e as [a'|o a'|a'], w as [w1|[w1|] [w2|]|w1|w1]; cbn in Hr; try contradiction; cbn in a; subst a; rewrite EN.
    - exists s1, (MAdd b), ρ1. destruct Hr as (R1 & R2 & R3). split; [reflexivity|]. split; [exact I1|]. split; [exact K1|]. split; [split; [exact B1|exact B2]|]. cbn. rewrite B3, R3. reflexivity.
    - exists s1, (MUpd o b), ρ1. destruct Hr as (R1 & R2 & R3 & R4 & R5 & R6).
      split; [reflexivity|]. split; [exact I1|]. split; [exact K1|]. destruct K1 as [K1 K2 K3 K4 K5 K6]. split.
      + split; [exact B1|]. split; [exact B2|]. split; [lia|]. rewrite K2 by exact R4. exact R5.
      + cbn. split; [rewrite B3, R3; reflexivity|]. intros Hf. rewrite K4 by assumption. auto.
    - exists s1, (MDel b), ρ1. destruct Hr as (R1 & R2 & R3). split; [reflexivity|]. split; [exact I1|]. split; [exact K1|]. split; [split; [exact B1|exact B2]|]. cbn. rewrite B3, R3. reflexivity. }
  destruct T as (s1 & e1 & ρ1 & E1 & I1 & K1 & M1 & W1). unfold notify. rewrite E1.
  destruct (told_inv s1 ρ1 c log i e1 (copied w) I1 M1 W1) as [I2 K2].
  exists ρ1. destruct (Hreact i) as [Hb|Hn].
  - destruct (scribbles_inv (Handler i) (react i (told s1 i e1) e1) _ ρ1 c _ Hb I2) as [I3 K3].
    split; [exact I3|]. eapply keeps_trans; [exact K1|]. eapply keeps_trans; eassumption.
  - rewrite Hn. cbn [foldl]. split; [exact I2|]. eapply keeps_trans; eassumption.
Qed.
Lemma notify_store e s i : ms_store (notify react e s i) = ms_store s.
Proof.
  unfold notify.
  assert (S : forall u l s, ms_store (foldl (scribble u) s l) = ms_store s).
  { intros u l. induction l as [|w l IH]; intros s0; [reflexivity|]. cbn. rewrite IH. unfold scribble. destruct (knows _ _ _); reflexivity. }
  destruct e; cbn; rewrite S; reflexivity.
Qed.

Definition tell_all (log : nat -> list wevent) (l : list nat) (w : wevent) : nat -> list wevent := foldl (fun log i => told_log log i w) log l.
Lemma notifies_inv e w l : forall s ρ c log,
  inv s ρ c log -> ready s ρ e w -> exists ρ',
  inv (foldl (notify react e) s l) ρ' c (tell_all log l (copied w)) /\ keeps s ρ (foldl (notify react e) s l) ρ'.
Proof.
  induction l as [|i l IH]; intros s ρ c log HI HR; [exists ρ; split; [exact HI|apply keeps_refl]|].
  destruct (notify_inv s ρ c log e w i HI HR) as (ρ1 & I1 & K1).
  destruct (IH _ ρ1 c _ I1 (ready_keeps _ _ _ _ _ _ K1 HR)) as (ρ2 & I2 & K2).
  exists ρ2. split; [exact I2|]. eapply keeps_trans; eassumption.
Qed.
Lemma tell_all_at w l : forall log i, NoDup l -> tell_all log l w i = if decide (i ∈ l) then log i ++ [w] else log i.
Proof.
  induction l as [|j l IH]; intros log i Hn.
  - rewrite decide_False by (intros H; inversion H). reflexivity.
  - apply NoDup_cons in Hn. destruct Hn as [Hj Hn]. unfold tell_all in *. cbn [foldl]. rewrite IH by exact Hn. unfold told_log.
    destruct (decide (i = j)) as [->|Hne].
    + rewrite (decide_False (P := j ∈ l)) by exact Hj. rewrite decide_True by left. reflexivity.
    + destruct (decide (i ∈ l)) as [Hi|Hi].
      * rewrite decide_True by (right; exact Hi). reflexivity.
      * rewrite decide_False; [reflexivity|]. intros Hc. apply elem_of_cons in Hc. tauto.
Qed.

Lemma listening_in s x i : i ∈ listening s x <-> ms_handlers s !! i = Some x.
Proof.
  unfold listening. rewrite elem_of_list_In, in_map_iff. split.
  - intros ([j y] & <- & H). apply filter_In in H. destruct H as [H E]. cbn in *. apply bool_decide_eq_true in E. subst y.
    apply elem_of_list_In, elem_of_map_to_list in H. exact H.
  - intros H. exists (i, x). split; [reflexivity|]. apply filter_In. split; [|apply bool_decide_eq_true; reflexivity].
    apply elem_of_list_In, elem_of_map_to_list, H.
Qed.
Lemma listening_nodup s x : NoDup (listening s x).
Proof.
  unfold listening. pose proof (NoDup_fst_map_to_list (ms_handlers s)) as H. revert H.
  change (fst <$> map_to_list (ms_handlers s)) with (map fst (map_to_list (ms_handlers s))).
  generalize (map_to_list (ms_handlers s)). intros l. induction l as [|[j y] l IH]; intros H; [constructor|].
  cbn in *. apply NoDup_cons in H. destruct H as [H1 H2]. destruct (bool_decide (y = x)); [|auto].
  cbn. apply NoDup_cons. split; [|auto]. intros Hc. apply H1.
  rewrite elem_of_list_In, in_map_iff in *. destruct Hc as (h & E & Hh). apply filter_In in Hh. exists h. tauto.
Qed.

Lemma trigger_inv s ρ c log x e w :
  inv s ρ c log -> ready s ρ e w -> exists ρ',
  inv (trigger react s x e) ρ' c (deliver (ms_handlers s) log [(x, w)]) /\ keeps s ρ (trigger react s x e) ρ'.
Proof.
  intros HI HR. unfold trigger. destruct (notifies_inv e w (listening s x) s ρ c log HI HR) as (ρ1 & I1 & K1).
  exists ρ1. split; [|exact K1]. eapply inv_ext; [|exact I1]. intros i. rewrite tell_all_at by apply listening_nodup.
  unfold deliver. destruct (decide (i ∈ listening s x)) as [Hi|Hi].
  - apply listening_in in Hi. rewrite Hi. cbn [List.filter fst]. rewrite bool_decide_true by reflexivity. reflexivity.
  - destruct (ms_handlers s !! i) as [y|] eqn:E; [|reflexivity]. cbn [List.filter fst].
    rewrite bool_decide_false; [cbn; rewrite app_nil_r; reflexivity|]. intros ->. apply Hi, listening_in, E.
Qed.

(** *** The store *)

Lemma cache_objects s x : cache_of (m_objects s) x = at_ s <$> m_cache s x.
Proof. unfold cache_of, m_objects, m_cache. rewrite lookup_fmap. destruct (ms_store s !! x); cbn; [reflexivity|]. rewrite fmap_empty. reflexivity. Qed.
Lemma cache_in s ρ c log x k a : inv s ρ c log -> m_cache s x !! k = Some a -> a < size s /\ ρ a = Internal.
Proof.
  intros HI H. unfold m_cache in H. destruct (ms_store s !! x) as [st|] eqn:E; cbn in H; [|rewrite lookup_empty in H; discriminate].
  eapply inv_free; eassumption.
Qed.

Lemma store_inv s ρ c log x st' :
  inv s ρ c log -> (forall k a, st' !! k = Some a -> a < size s /\ ρ a = Internal) ->
  inv (with_store s (<[x := st']> (ms_store s))) ρ (<[x := at_ s <$> st']> c) log
  /\ keeps s ρ (with_store s (<[x := st']> (ms_store s))) ρ.
Proof.
  intros HI Hst. pose proof HI as [H1 H2 H3 H4]. split; [|split; auto].
  split.
  - exact H1.
  - intros y st k a Hy Hk. cbn in Hy. destruct (decide (y = x)) as [->|Hne].
    + rewrite lookup_insert in Hy. injection Hy as <-. eauto.
    + rewrite lookup_insert_ne in Hy by auto. eauto.
  - rewrite H3. unfold m_objects, with_store. cbn [ms_store]. rewrite fmap_insert. reflexivity.
  - exact H4.
Qed.
Lemma put_inv s ρ c log x b :
  inv s ρ c log -> b < size s -> ρ b = Internal ->
  inv (m_put s x b) ρ (put c x (at_ s b)) log /\ keeps s ρ (m_put s x b) ρ.
Proof.
  intros HI Hb Hr. unfold m_put, put.
  destruct (store_inv s ρ c log x (<[store_key (at_ s b) := b]> (m_cache s x)) HI) as [I1 K1].
  { intros k a Hk. destruct (decide (k = store_key (at_ s b))) as [->|Hne].
    - rewrite lookup_insert in Hk. injection Hk as <-. auto.
    - rewrite lookup_insert_ne in Hk by auto. eapply cache_in; eassumption. }
  split; [|exact K1]. rewrite fmap_insert in I1. rewrite (inv_cache _ _ _ _ HI) at 1 2. rewrite (inv_cache _ _ _ _ HI) in I1.
  rewrite cache_objects. exact I1.
Qed.
Lemma drop_inv s ρ c log x k :
  inv s ρ c log -> inv (m_drop s x k) ρ (drop_key c x k) log /\ keeps s ρ (m_drop s x k) ρ.
Proof.
  intros HI. unfold m_drop, drop_key.
  destruct (store_inv s ρ c log x (delete k (m_cache s x)) HI) as [I1 K1].
  { intros j a Hk. apply lookup_delete_Some in Hk. eapply cache_in; [exact HI|apply Hk]. }
  split; [|exact K1]. rewrite fmap_delete in I1. rewrite (inv_cache _ _ _ _ HI) at 1 2. rewrite (inv_cache _ _ _ _ HI) in I1.
  rewrite cache_objects. exact I1.
Qed.

(** *** Calls *)

Definition does (s : msys) (ρ : nat -> role) (log : nat -> list wevent) (r : msys * vresult) (o : outcome) : Prop :=
  exists ρ', inv r.1 ρ' o.1.1 (deliver (ms_handlers s) log o.1.2) /\ keeps s ρ r.1 ρ' /\ r.2 = o.2.
Lemma deliver_nil hs log i : deliver hs log [] i = log i.
Proof. unfold deliver. destruct (hs !! i); [apply app_nil_r|reflexivity]. Qed.
Lemma deliver_app hs log es es' i : deliver hs (deliver hs log es) es' i = deliver hs log (es ++ es') i.
Proof.
  unfold deliver. destruct (hs !! i); [|reflexivity]. rewrite List.filter_app, map_app, app_assoc. reflexivity.
Qed.
Lemma does_nothing s ρ c log s' ρ' r :
  inv s' ρ' c log -> keeps s ρ s' ρ' -> does s ρ log (s', r) (c, [], r).
Proof.
  intros HI HK. exists ρ'. split; [|split; [exact HK|reflexivity]]. eapply inv_ext; [|exact HI]. intros i. rewrite deliver_nil. reflexivity.
Qed.
Lemma does_keeps s ρ s' ρ' log r o :
  keeps s ρ s' ρ' -> does s' ρ' log r o -> does s ρ log r o.
Proof.
  intros HK (ρ1 & I1 & K1 & E1). exists ρ1. split; [rewrite <- (k_hs _ _ _ _ HK); exact I1|]. split; [|exact E1].
  eapply keeps_trans; eassumption.
Qed.

Lemma does_trigger s ρ c log s1 ρ1 x e w :
  keeps s ρ s1 ρ1 -> inv s1 ρ1 c log -> ready s1 ρ1 e w ->
  does s ρ log (trigger react s1 x e, VOk) (c, [(x, w)], VOk).
Proof.
  intros K1 I1 R1. destruct (trigger_inv s1 ρ1 c log x e w I1 R1) as (ρ2 & I2 & K2).
  exists ρ2. cbn [fst snd]. rewrite <- (k_hs _ _ _ _ K1). split; [exact I2|]. split; [|reflexivity]. eapply keeps_trans; eassumption.
Qed.

Lemma add_does s ρ c log a : inv s ρ c log -> does s ρ log (m_add hash react s a) (vc_add hash c (at_ s a)).
Proof.
  intros HI. unfold m_add, vc_add. destruct (is_view_kind (get_gvk (at_ s a))) eqn:E; [|apply does_nothing with ρ; [exact HI|apply keeps_refl]].
  destruct (new_inv s ρ c log (stamp hash (at_ s a)) Internal HI) as (ρ1 & HN).
  destruct (new_obj s (stamp hash (at_ s a))) as [s1 b]. destruct HN as (I1 & K1 & B1 & B2 & B3 & B4 & B5 & B6).
  destruct (put_inv s1 ρ1 c log (get_gvk (at_ s a)) b I1 B1 B2) as [I2 K2]. rewrite B3 in I2.
  eapply does_trigger; [eapply keeps_trans; eassumption|exact I2|].
  cbn. split; [exact B1|]. split; [exact B2|]. exact B3.
Qed.
Lemma change_does s ρ c log old mo a :
  inv s ρ c log -> old < size s -> ρ old = Shared -> at_ s old = mo -> a < size s ->
  does s ρ log (m_change hash react s old a) (vc_update hash c mo (at_ s a)).
Proof.
  intros HI Ho Hr Hm Ha. unfold m_change, vc_update. cbv zeta.
  destruct (new_inv s ρ c log (stamp hash (at_ s a)) Internal HI) as (ρ1 & HN).
  destruct (new_obj s (stamp hash (at_ s a))) as [s1 b]. destruct HN as (I1 & K1 & B1 & B2 & B3 & B4 & B5 & B6).
  rewrite B3, (B4 old Ho), Hm.
  destruct (is_view_kind _); [|apply does_nothing with ρ1; assumption].
  destruct (obj_equal _ _); [apply does_nothing with ρ1; assumption|].
  destruct (put_inv s1 ρ1 c log (get_gvk (stamp hash (at_ s a))) b I1 B1 B2) as [I2 K2]. rewrite B3 in I2.
  eapply does_trigger; [eapply keeps_trans; eassumption|exact I2|].
  cbn. split; [exact B1|]. split; [exact B2|]. split; [exact B3|]. pose proof (k_size _ _ _ _ K1).
  split; [lia|]. split; [rewrite (k_role _ _ _ _ K1) by exact Ho; exact Hr|]. intros _.
  change (at_ s1 old = mo). rewrite B4 by exact Ho. exact Hm.
Qed.
Lemma delete_does s ρ c log a : inv s ρ c log -> does s ρ log (m_delete react s a) (vc_delete c (at_ s a)).
Proof.
  intros HI. unfold m_delete, vc_delete. cbv zeta.
  destruct (is_view_kind _); [|apply does_nothing with ρ; [exact HI|apply keeps_refl]].
  replace (cache_of c (get_gvk (at_ s a))) with (at_ s <$> m_cache s (get_gvk (at_ s a))) by (rewrite (inv_cache _ _ _ _ HI); symmetry; apply cache_objects).
  rewrite lookup_fmap. destruct (m_cache s (get_gvk (at_ s a)) !! store_key (at_ s a)) as [e|] eqn:E; cbn [fmap option_fmap option_map];
    [|apply does_nothing with ρ; [exact HI|apply keeps_refl]].
  destruct (cache_in _ _ _ _ _ _ _ HI E) as [H1 H2].
  destruct (drop_inv s ρ c log (get_gvk (at_ s a)) (store_key (at_ s e)) HI) as [I1 K1].
  eapply does_trigger; [exact K1|exact I1|]. cbn. split; [exact H1|]. split; [exact H2|reflexivity].
Qed.

(** Get: a copy for whatever it is needed. *)
Lemma get_inv s ρ c log x ns name r :
  inv s ρ c log ->
  match m_get s x ns name with
  | (s', None) => s' = s /\ vc_get c x ns name = None
  | (s', Some b) => vc_get c x ns name = Some (at_ s' b) /\ exists ρ', inv s' ρ' c log /\ keeps s ρ s' ρ' /\ b < size s' /\ ρ' b = r
      /\ (forall a, a < size s -> at_ s' a = at_ s a) /\ ms_held s' = ms_held s
  end.
Proof.
  intros HI. unfold m_get, vc_get. destruct (is_view_kind x); [|auto].
  rewrite (inv_cache _ _ _ _ HI), cache_objects, lookup_fmap.
  destruct (m_cache s x !! skey ns name) as [e|] eqn:E; cbn [fmap option_fmap option_map]; [|auto].
  unfold copy_obj. destruct (new_inv s ρ c log (obj_copy (at_ s e)) r HI) as (ρ1 & HN).
  destruct (new_obj s (obj_copy (at_ s e))) as [s1 b]. destruct HN as (I1 & K1 & B1 & B2 & B3 & B4 & B5 & B6).
  split; [rewrite B3; reflexivity|]. exists ρ1. rewrite <- (inv_cache _ _ _ _ HI). auto 10.
Qed.
Lemma current_inv s ρ c log m r :
  inv s ρ c log ->
  match m_current s m with
  | (s', None) => s' = s /\ current c m = None
  | (s', Some b) => current c m = Some (at_ s' b) /\ exists ρ', inv s' ρ' c log /\ keeps s ρ s' ρ' /\ b < size s' /\ ρ' b = r
      /\ (forall a, a < size s -> at_ s' a = at_ s a) /\ ms_held s' = ms_held s
  end.
Proof. intros HI. unfold m_current, current. apply get_inv, HI. Qed.

Lemma update_does s ρ c log a : inv s ρ c log -> a < size s -> does s ρ log (m_update hash react s a) (cl_update hash c (at_ s a)).
Proof.
  intros HI Ha. unfold m_update, cl_update. pose proof (current_inv s ρ c log (at_ s a) Shared HI) as H.
  destruct (m_current s (at_ s a)) as [s1 [o|]].
  - destruct H as (E & ρ1 & I1 & K1 & B1 & B2 & B3 & B4). rewrite E, (B3 a Ha).
    destruct (obj_equal _ _); [apply does_nothing with ρ1; assumption|].
    eapply does_keeps; [exact K1|]. rewrite <- (B3 a Ha). pose proof (k_size _ _ _ _ K1). apply change_does; auto. lia.
  - destruct H as [-> ->]. apply does_nothing with ρ; [exact HI|apply keeps_refl].
Qed.
Lemma patch_does s ρ c log a p : inv s ρ c log -> does s ρ log (m_patch hash react s a p) (cl_patch hash c (at_ s a) p).
Proof.
  intros HI. unfold m_patch, cl_patch. pose proof (current_inv s ρ c log (at_ s a) Shared HI) as H.
  destruct (m_current s (at_ s a)) as [s1 [o|]].
  - destruct H as (E & ρ1 & I1 & K1 & B1 & B2 & B3 & B4). rewrite E.
    destruct (patch_object (at_ s1 o) p) as [m|]; [|apply does_nothing with ρ1; assumption].
    destruct (new_inv s1 ρ1 c log m Internal I1) as (ρ2 & HN).
    destruct (new_obj s1 m) as [s2 b]. destruct HN as (I2 & K2 & C1 & C2 & C3 & C4 & C5 & C6).
    eapply does_keeps; [eapply keeps_trans; [exact K1|exact K2]|]. rewrite <- C3. pose proof (k_size _ _ _ _ K2).
    apply change_does; auto; [lia|]. rewrite (k_role _ _ _ _ K2) by exact B1. exact B2.
  - destruct H as [-> ->]. apply does_nothing with ρ; [exact HI|apply keeps_refl].
Qed.
Lemma new_update_does s ρ c log m : inv s ρ c log ->
  does s ρ log (let '(s, b) := new_obj s m in m_update hash react s b) (cl_update hash c m).
Proof.
  intros HI. destruct (new_inv s ρ c log m Internal HI) as (ρ1 & HN).
  destruct (new_obj s m) as [s1 b]. destruct HN as (I1 & K1 & B1 & B2 & B3 & B4 & B5 & B6).
  eapply does_keeps; [exact K1|]. rewrite <- B3. apply update_does; assumption.
Qed.
Lemma sub_update_does s ρ c log sub a : inv s ρ c log -> a < size s ->
  does s ρ log (m_sub_update hash react s sub a) (cl_sub_update hash c sub (at_ s a)).
Proof.
  intros HI Ha. unfold m_sub_update, cl_sub_update. pose proof (current_inv s ρ c log (at_ s a) Internal HI) as H.
  destruct (m_current s (at_ s a)) as [s1 [o|]].
  - destruct H as (E & ρ1 & I1 & K1 & B1 & B2 & B3 & B4). rewrite E, (B3 a Ha).
    destruct (mget (at_ s a) sub) as [[| | | | | |v]|]; try (apply does_nothing with ρ1; assumption).
    destruct (match mget (at_ s1 o) sub with Some (JMap w) => go_equal (JMap w) (JMap v) | _ => false end); [apply does_nothing with ρ1; assumption|].
    eapply does_keeps; [exact K1|]. apply new_update_does, I1.
  - destruct H as [-> ->]. apply does_nothing with ρ; [exact HI|apply keeps_refl].
Qed.
Lemma sub_create_does s ρ c log sub a b : inv s ρ c log ->
  does s ρ log (m_sub_create hash react s sub a b) (cl_sub_create hash c sub (at_ s a) (at_ s b)).
Proof.
  intros HI. unfold m_sub_create, cl_sub_create.
  destruct (mget (at_ s b) sub) as [[| | | | | |v]|]; try (apply does_nothing with ρ; [exact HI|apply keeps_refl]).
  pose proof (current_inv s ρ c log (at_ s a) Internal HI) as H.
  destruct (m_current s (at_ s a)) as [s1 [o|]].
  - destruct H as (E & ρ1 & I1 & K1 & B1 & B2 & B3 & B4). rewrite E.
    eapply does_keeps; [exact K1|]. apply new_update_does, I1.
  - destruct H as [-> ->]. apply does_nothing with ρ; [exact HI|apply keeps_refl].
Qed.

(** Lists. *)
Lemma items_at s x : map (at_ s) (m_items keys s x) = lister (cache_of (m_objects s) x).
Proof.
  unfold m_items, key_lister. rewrite cache_objects, dom_fmap_L. generalize (keys (dom (m_cache s x))). intros l.
  induction l as [|k l IH]; [reflexivity|]. cbn [omap list_omap]. rewrite lookup_fmap.
  destruct (m_cache s x !! k) as [a|]; cbn [fmap option_fmap option_map]; [cbn [map]; f_equal; exact IH|exact IH].
Qed.
Lemma items_in s ρ c log x : inv s ρ c log -> Forall (fun a => a < size s /\ ρ a = Internal) (m_items keys s x).
Proof.
  intros HI. apply List.Forall_forall. intros a Ha. apply elem_of_list_In in Ha. unfold m_items in Ha. apply elem_of_list_omap in Ha.
  destruct Ha as (k & _ & Hk). eapply cache_in; eassumption.
Qed.
Lemma copy_all_inv r l : forall s ρ c log r0,
  inv s ρ c log -> Forall (fun a => a < size s /\ ρ a = Internal) l -> Forall (fun b => b < size s) r0 -> exists ρ',
  let '(s', bs) := foldl (fun '(s, r) a => let '(s, b) := copy_obj s a in (s, r ++ [b])) (s, r0) l in
  inv s' ρ' c log /\ keeps s ρ s' ρ' /\ (exists bs', bs = r0 ++ bs' /\ map (at_ s') bs' = map (fun a => obj_copy (at_ s a)) l
     /\ Forall (fun b => b < size s' /\ ρ' b = r /\ size s <= b) bs')
  /\ (forall a, a < size s -> at_ s' a = at_ s a) /\ ms_held s' = ms_held s.
Proof.
  induction l as [|a l IH]; intros s ρ c log r0 HI Hl H0.
  - exists ρ. cbn. split; [exact HI|]. split; [apply keeps_refl|]. split; [|auto]. exists []. rewrite app_nil_r. auto.
  - apply Forall_cons in Hl. destruct Hl as [[Ha Hra] Hl]. cbn [foldl]. unfold copy_obj at 2.
    destruct (new_inv s ρ c log (obj_copy (at_ s a)) r HI) as (ρ1 & HN).
    assert (EN : snd (new_obj s (obj_copy (at_ s a))) = size s) by reflexivity.
    destruct (new_obj s (obj_copy (at_ s a))) as [s1 b]. cbn in EN. destruct HN as (I1 & K1 & B1 & B2 & B3 & B4 & B5 & B6).
    pose proof (k_size _ _ _ _ K1) as L1.
    assert (Hl' : Forall (fun a => a < size s1 /\ ρ1 a = Internal) l).
    { eapply Forall_impl; [exact Hl|]. cbn. intros d [D1 D2]. rewrite (k_role _ _ _ _ K1) by exact D1. split; [lia|exact D2]. }
    destruct (IH s1 ρ1 c log (r0 ++ [b]) I1 Hl') as (ρ2 & H2).
    { apply Forall_app. split; [eapply Forall_impl; [exact H0|]; cbn; intros; lia|]. constructor; [exact B1|constructor]. }
    exists ρ2. destruct (foldl _ _ l) as [s2 bs]. destruct H2 as (I2 & K2 & (bs' & -> & Hv & Hf) & A2 & H2).
    split; [exact I2|]. split; [eapply keeps_trans; eassumption|]. split; [|split].
    + exists (b :: bs'). rewrite <- app_assoc. split; [reflexivity|]. split.
      * cbn [map]. rewrite A2 by exact B1. rewrite B3. f_equal. rewrite Hv. apply map_ext_in. intros d Hd.
        apply elem_of_list_In in Hd. rewrite Forall_forall in Hl. rewrite B4; [reflexivity|]. apply Hl, Hd.
      * constructor.
        -- pose proof (k_size _ _ _ _ K2). split; [lia|]. split; [rewrite (k_role _ _ _ _ K2) by exact B1; exact B2|lia].
        -- eapply Forall_impl; [exact Hf|]. cbn. intros d (D1 & D2 & D3). split; [exact D1|]. split; [exact D2|lia].
    + intros d Hd. rewrite A2 by lia. auto.
    + congruence.
Qed.
Lemma filter_map {A B} (f : A -> B) (p : B -> bool) l : List.filter p (map f l) = map f (List.filter (fun a => p (f a)) l).
Proof. induction l as [|a l IH]; [reflexivity|]. cbn. destruct (p (f a)); cbn; rewrite IH; reflexivity. Qed.
Lemma list_inv r s ρ c log x sel :
  inv s ρ c log -> exists ρ',
  let '(s', bs) := m_list keys s x sel in
  inv s' ρ' c log /\ keeps s ρ s' ρ' /\ map (at_ s') bs = vc_list lister c x sel
  /\ Forall (fun b => b < size s' /\ ρ' b = r /\ size s <= b) bs
  /\ (forall a, a < size s -> at_ s' a = at_ s a) /\ ms_held s' = ms_held s.
Proof.
  intros HI. unfold m_list, copy_all, vc_list.
  destruct (copy_all_inv r (List.filter (fun a => selects sel (at_ s a)) (m_items keys s (object_gvk x))) s ρ c log [] HI) as (ρ1 & H1).
  { pose proof (items_in s ρ c log (object_gvk x) HI) as H. rewrite List.Forall_forall in *. intros a Ha. apply filter_In in Ha. apply H, Ha. }
  { constructor. }
  exists ρ1. destruct (foldl _ _ _) as [s1 bs]. destruct H1 as (I1 & K1 & (bs' & -> & Hv & Hf) & A & Hh). cbn [app].
  split; [exact I1|]. split; [exact K1|]. split; [|auto].
  rewrite Hv, (inv_cache _ _ _ _ HI), <- items_at, filter_map, map_map. reflexivity.
Qed.

Lemma delete_items_does l : forall s ρ c log,
  inv s ρ c log -> Forall (fun a => a < size s /\ ρ a = Internal) l ->
  does s ρ log (m_delete_items react s l) (delete_items c (map (at_ s) l)).
Proof.
  induction l as [|a l IH]; intros s ρ c log HI Hl; [apply does_nothing with ρ; [exact HI|apply keeps_refl]|].
  apply Forall_cons in Hl. destruct Hl as [[Ha Hr] Hl]. cbn [m_delete_items delete_items map].
  pose proof (delete_does s ρ c log a HI) as (ρ1 & I1 & K1 & E1).
  destruct (m_delete react s a) as [s1 v1]. destruct (vc_delete c (at_ s a)) as [[c1 es1] v1']. cbn [fst snd] in *. subst v1'.
  assert (D : does s ρ log (s1, v1) (c1, es1, v1)) by (exists ρ1; auto).
  destruct v1; [|exact D|exact D]. clear D.
  assert (Hl' : Forall (fun a => a < size s1 /\ ρ1 a = Internal) l).
  { eapply Forall_impl; [exact Hl|]. cbn. intros d [D1 D2]. rewrite (k_role _ _ _ _ K1) by exact D1. pose proof (k_size _ _ _ _ K1). split; [lia|exact D2]. }
  pose proof (IH s1 ρ1 c1 _ I1 Hl') as (ρ2 & I2 & K2 & E2).
  replace (map (at_ s1) l) with (map (at_ s) l) in I2, E2.
  2:{ apply map_ext_in. intros d Hd. apply elem_of_list_In in Hd. rewrite Forall_forall in Hl. symmetry. apply (k_int _ _ _ _ K1); apply Hl, Hd. }
  destruct (delete_items c1 (map (at_ s) l)) as [[c2 es2] v2]. cbn [fst snd] in *.
  exists ρ2. cbn [fst snd]. split; [|split; [eapply keeps_trans; eassumption|exact E2]].
  eapply inv_ext; [|exact I2]. intros i. rewrite (k_hs _ _ _ _ K1). apply deliver_app.
Qed.
Lemma delete_all_does s ρ c log a sel : inv s ρ c log ->
  does s ρ log (m_delete_all keys react s a sel) (cl_delete_all lister c (at_ s a) sel).
Proof.
  intros HI. unfold m_delete_all, cl_delete_all.
  destruct (list_inv Internal s ρ c log (list_gvk (view_gvk (get_operator (get_gvk (at_ s a))) (get_kind (at_ s a)))) sel HI) as (ρ1 & H1).
  destruct (m_list keys s _ sel) as [s1 bs]. destruct H1 as (I1 & K1 & <- & Hf & A & Hh).
  eapply does_keeps; [exact K1|]. apply delete_items_does; [exact I1|]. eapply Forall_impl; [exact Hf|]. cbn. tauto.
Qed.
End alias.
