(** Runs of the view cache on memory. *)
From Verif Require Import AliasModel AliasSpec AliasProofs ViewSpec ViewModel.
Local Open Scope nat_scope.

Section alias.
#[local] Arguments at_ : simpl never.
Variable hash : string -> string.
Variable keys : gset string -> list string.
Variable react : nat -> msys -> mevent -> list (nat * jobj).
Variable bad : nat -> Prop.
Hypothesis Hreact : forall i, bad i \/ forall s e, react i s e = [].
Notation lister := (key_lister keys).
Notation size s := (length (ms_mem s)).
Notation inv := (inv bad).
Notation keeps := (keeps bad).

Lemma give_inv s ρ c log u b : inv s ρ c log -> b < size s -> may_hold (ρ b) u -> inv (give s u b) ρ c log.
Proof.
  intros [H1 H2 H3 H4] Hb Hr. split.
  - intros u' a Ha. unfold give in Ha. cbn [ms_held] in Ha. apply elem_of_cons in Ha. destruct Ha as [Ha|Ha].
    + injection Ha as -> ->. auto.
    + exact (H1 u' a Ha).
  - exact H2.
  - exact H3.
  - exact H4.
Qed.
Lemma give_all_inv u l : forall s ρ c log, inv s ρ c log -> Forall (fun b => b < size s /\ ρ b = Public) l -> inv (give_all s u l) ρ c log.
Proof.
  induction l as [|b l IH]; intros s ρ c log HI Hl; [exact HI|]. apply Forall_cons in Hl. destruct Hl as [[Hb Hr] Hl].
  unfold give_all. cbn [foldl]. apply IH; [|exact Hl]. apply give_inv; [exact HI|exact Hb|rewrite Hr; exact I].
Qed.
Lemma give_all_same u l : forall s, ms_mem (give_all s u l) = ms_mem s /\ ms_handlers (give_all s u l) = ms_handlers s /\ ms_next (give_all s u l) = ms_next s.
Proof. induction l as [|b l IH]; intros s; [auto|]. unfold give_all in *. cbn [foldl]. destruct (IH (give s u b)) as (A & B & C). rewrite A, B, C. auto. Qed.

Lemma replay_inv i l : forall s ρ c log,
  inv s ρ c log -> Forall (fun a => a < size s /\ ρ a = Internal) l -> exists ρ',
  inv (foldl (fun s a => notify react (MAdd a) s i) s l) ρ' c
    (fun j => if decide (j = i) then log i ++ map (fun a => WCreate (obj_copy (at_ s a))) l else log j)
  /\ keeps s ρ (foldl (fun s a => notify react (MAdd a) s i) s l) ρ'.
Proof.
  induction l as [|a l IH]; intros s ρ c log HI Hl.
  { exists ρ. split; [|apply keeps_refl]. eapply inv_ext; [|exact HI]. intros j. cbn. destruct (decide (j = i)) as [->|]; [rewrite app_nil_r|]; reflexivity. }
  apply Forall_cons in Hl. destruct Hl as [[Ha Hr] Hl]. cbn [foldl].
  destruct (notify_inv react bad Hreact s ρ c log (MAdd a) (WCreate (at_ s a)) i HI) as (ρ1 & I1 & K1); [cbn; auto|].
  destruct (IH _ ρ1 c _ I1) as (ρ2 & I2 & K2).
  { eapply Forall_impl; [exact Hl|]. cbv beta. intros d [D1 D2]. rewrite (k_role _ _ _ _ _ K1) by exact D1. pose proof (k_size _ _ _ _ _ K1). split; [lia|exact D2]. }
  exists ρ2. split; [|eapply keeps_trans; eassumption]. eapply inv_ext; [|exact I2]. intros j. cbn beta. unfold told_log.
  destruct (decide (j = i)) as [->|Hne]; [|reflexivity].
  rewrite (decide_True (P := i = i)) by reflexivity. rewrite <- app_assoc. cbn [app map copied]. do 2 f_equal. apply map_ext_in. intros d Hd. apply elem_of_list_In in Hd.
  rewrite Forall_forall in Hl. rewrite (k_int _ _ _ _ _ K1); [reflexivity|apply Hl, Hd|apply Hl, Hd].
Qed.

(** The states of the two caches correspond. *)
Definition like (s : msys) (ρ : nat -> role) (v : vsys) : Prop :=
  inv s ρ (vs_cache v) (vs_log v) /\ ms_handlers s = vs_handlers v /\ ms_next s = vs_next v.
Definition allowed (a : mact) : Prop := no_peek a /\ match a with MScribble u _ _ => may bad u | _ => True end.

Lemma does_like s ρ v r o :
  like s ρ v -> does bad s ρ (vs_log v) r (vstep hash lister (vs_cache v) o) ->
  exists ρ', like r.1 ρ' (vact_step hash lister v (Do o)) /\ keeps s ρ r.1 ρ'.
Proof.
  intros (HI & Hh & Hn) (ρ1 & I1 & K1 & E1). exists ρ1. split; [|exact K1]. cbn [vact_step].
  destruct (vstep hash lister (vs_cache v) o) as [[c es] r1]. cbn [fst snd] in *. unfold like. cbn [vs_cache vs_log vs_handlers vs_next].
  rewrite <- Hh. split; [exact I1|]. rewrite (k_hs _ _ _ _ _ K1), (k_next _ _ _ _ _ K1). auto.
Qed.

Lemma knows_in s ρ c log u a : inv s ρ c log -> knows s u a = true -> a < size s.
Proof. intros HI E. unfold knows in E. apply bool_decide_eq_true in E. eapply inv_held; eassumption. Qed.

Lemma step_like s ρ v a :
  like s ρ v -> allowed a -> exists ρ', like (mstep hash keys react s a).1 ρ' (vact_run hash lister v (call_of s a)).
Proof.
  intros HL [HP HA]. pose proof HL as (HI & Hh & Hn).
  assert (call : forall u b r o, (b < size s -> does bad s ρ (vs_log v) r (vstep hash lister (vs_cache v) o)) ->
    exists ρ', like (if knows s u b then (r.1, []) else (s, @nil nat)).1 ρ' (vact_run hash lister v (if knows s u b then [Do o] else []))).
  { intros u b r o HD. destruct (knows s u b) eqn:E; [|exists ρ; exact HL].
    destruct (does_like s ρ v r o HL (HD (knows_in _ _ _ _ _ _ HI E))) as (ρ1 & H1 & _). exists ρ1. exact H1. }
  destruct a as [u m|u a m|u a|u a|u a p|u a|u a sel|u sub a|u sub a b|u x ns name|u x sel|x|i|u x]; cbn [mstep call_of].
  - destruct (new_inv bad s ρ (vs_cache v) (vs_log v) m Public HI) as (ρ1 & HN).
    destruct (new_obj s m) as [s1 b]. destruct HN as (I1 & K1 & B1 & B2 & B3 & B4 & B5 & B6).
    exists ρ1. cbn [fst vact_run foldl]. split; [apply give_inv; [exact I1|exact B1|rewrite B2; exact I]|].
    unfold give. cbn. rewrite (k_hs _ _ _ _ _ K1), (k_next _ _ _ _ _ K1). auto.
  - destruct (scribble_inv bad s ρ (vs_cache v) (vs_log v) u (a, m) HA HI) as [I1 K1]. exists ρ. cbn [fst vact_run foldl].
    split; [exact I1|]. rewrite (k_hs _ _ _ _ _ K1), (k_next _ _ _ _ _ K1). auto.
  - apply call. intros _. apply add_does; assumption.
  - apply call. intros Ha. apply update_does; assumption.
  - apply call. intros Ha. apply patch_does; assumption.
  - apply call. intros Ha. apply delete_does; assumption.
  - apply call. intros Ha. apply delete_all_does; assumption.
  - apply call. intros Ha. apply sub_update_does; assumption.
  - destruct (knows s u b) eqn:E; [|exists ρ; exact HL]. apply call. intros Ha. apply sub_create_does; assumption.
  - pose proof (get_inv bad s ρ (vs_cache v) (vs_log v) x ns name Public HI) as H.
    destruct (m_get s x ns name) as [s1 [b|]].
    + destruct H as (E & ρ1 & I1 & K1 & B1 & B2 & B3 & B4). exists ρ1. cbn [fst vact_run foldl].
      split; [apply give_inv; [exact I1|exact B1|rewrite B2; exact I]|]. unfold give. cbn. rewrite (k_hs _ _ _ _ _ K1), (k_next _ _ _ _ _ K1). auto.
    + destruct H as [-> _]. exists ρ. exact HL.
  - destruct (list_inv keys bad Public s ρ (vs_cache v) (vs_log v) x sel HI) as (ρ1 & H).
    destruct (m_list keys s x sel) as [s1 bs]. destruct H as (I1 & K1 & Hv & Hf & A & H2). exists ρ1. cbn [fst vact_run foldl].
    destruct (give_all_same u bs s1) as (_ & E1 & E2). split; [|rewrite E1, E2, (k_hs _ _ _ _ _ K1), (k_next _ _ _ _ _ K1); auto].
    apply give_all_inv; [exact I1|]. eapply Forall_impl; [exact Hf|]. cbn. tauto.
  - cbn [fst vact_run foldl vact_step]. unfold m_listen. destruct (is_view_kind x); [|exists ρ; exact HL].
    rewrite <- Hn. set (i := ms_next s). cbv zeta.
    set (s1 := Msys (ms_mem s) (ms_store s) (S i) (<[i := x]> (ms_handlers s)) (fun j => if decide (j = i) then [] else ms_log s j) (ms_held s)).
    set (log1 := fun j => if decide (j = i) then [] else vs_log v j).
    assert (I1 : inv s1 ρ (vs_cache v) log1).
    { destruct HI as [H1 H2 H3 H4]. split; [exact H1|exact H2|exact H3|]. intros j Hj. unfold s1, log1. cbn [ms_log].
      destruct (decide (j = i)); [constructor|]. exact (H4 j Hj). }
    destruct (replay_inv i (m_items keys s1 x) s1 ρ (vs_cache v) log1 I1) as (ρ1 & I2 & K2).
    { eapply items_in, I1. }
    exists ρ1. split; [|rewrite (k_hs _ _ _ _ _ K2), (k_next _ _ _ _ _ K2); cbn; rewrite Hh; auto].
    cbn [vs_cache vs_log]. eapply inv_ext; [|exact I2]. intros j. unfold log1. cbn beta.
    destruct (decide (j = i)) as [->|Hne]; [|reflexivity]. rewrite (decide_True (P := i = i)) by reflexivity. cbn [app].
    rewrite (inv_cache _ _ _ _ _ I1), <- items_at, map_map. reflexivity.
  - cbn [fst vact_run foldl vact_step]. exists ρ. split; [|cbn; rewrite Hh; auto].
    destruct HI as [H1 H2 H3 H4]. split; assumption.
  - destruct HP.
Qed.

Lemma vact_run_app v l l' : vact_run hash lister v (l ++ l') = vact_run hash lister (vact_run hash lister v l) l'.
Proof. apply foldl_app. Qed.
Lemma run_like l : forall s ρ v, like s ρ v -> Forall allowed l ->
  exists ρ', like (mrun hash keys react s l) ρ' (vact_run hash lister v (calls hash keys react s l)).
Proof.
  induction l as [|a l IH]; intros s ρ v HL Hl; [exists ρ; exact HL|]. apply Forall_cons in Hl. destruct Hl as [Ha Hl].
  destruct (step_like s ρ v a HL Ha) as (ρ1 & H1). destruct (IH _ ρ1 _ H1 Hl) as (ρ2 & H2).
  exists ρ2. cbn [calls]. rewrite vact_run_app. exact H2.
Qed.
Lemma like0 : like msys0 (fun _ => Public) vsys0.
Proof.
  split; [|split; reflexivity]. split.
  - intros u a Ha. inversion Ha.
  - intros x st k a Hx. cbn in Hx. rewrite lookup_empty in Hx. discriminate.
  - unfold m_objects. cbn. rewrite fmap_empty. reflexivity.
  - intros i _. constructor.
Qed.
End alias.
