(** Pipelines whose stages are known functions on the objects that reach them. *)
From Verif Require Import JsonModel ObjModel ZSetModel OpsModel ExecModel PipelineModel ValueModel PipeJsonModel StageModel.
From Verif Require Import JsonSpec CleanSpec PipelineSpec StageSpec StageRunSpec StageNames.

Section chain.
Context {FF : FloatFmt} {EE : ExprEnv}.

Definition stage_does (s : stage) (d : jobj) (r : list jobj) : Prop :=
  match st_kind s with
  | KSelect => exists b : bool, eval_doc (st_expr s) d = Some (JBool b) /\ r = if b then [d] else []
  | KProject => exists d', projected (st_expr s) d d' /\ r = [d']
  | KUnwind => (exists v, get_raw name_path (JMap d) = Val v) /\ unwound (st_expr s) d r
  | _ => False
  end.
Lemma jmap_inj us us' : map JMap us = map JMap us' -> us = us'.
Proof. revert us'. induction us as [|u us IH]; intros [|u' us'] E; try done. cbn in E. injection E as -> E. f_equal. by apply IH. Qed.
Lemma projected_fun e d r r' : projected e d r -> projected e d r' -> r = r'.
Proof. intros [H|(us & H & M)] [H'|(us' & H' & M')]; rewrite H in H'; try done; [by injection H' as ->|]. injection H' as H'%jmap_inj. subst us'. rewrite M in M'. by injection M' as ->. Qed.
Lemma unwound_fun e d r r' : unwound e d r -> unwound e d r' -> r = r'.
Proof.
  intros (path & vs & Hp & Hv & HL & H) (path' & vs' & Hp' & Hv' & HL' & H'). rewrite Hp in Hp'. injection Hp' as <-.
  assert (vs' = vs) as ->. { destruct Hv as [Hv|[Hv ->]], Hv' as [Hv'|[Hv' ->]]; rewrite Hv in Hv'; try done. by injection Hv' as ->. }
  apply list_eq_same_length with (length vs); [done..|]. intros i x y Hi Hx Hy. destruct (lookup_lt_is_Some_2 vs i Hi) as [v Ev].
  destruct (H i v x Ev Hx) as (d1 & n1 & A1 & A2 & A3), (H' i v y Ev Hy) as (d2 & n2 & B1 & B2 & B3). congruence.
Qed.
Lemma does_fun s d r r' : stage_does s d r -> stage_does s d r' -> r = r'.
Proof.
  unfold stage_does. destruct (st_kind s); try done.
  - intros (b & H & ->) (b' & H' & ->). rewrite H in H'. by injection H' as ->.
  - intros (x & H & ->) (x' & H' & ->). f_equal. by eapply projected_fun.
  - intros [_ H] [_ H']. by eapply unwound_fun.
Qed.
Lemma does_acts sortv s g l r : (forall d, In d l -> stage_does s d (g d)) -> stage_means sortv s l r -> r = flat_map g l.
Proof.
  unfold stage_means, stage_does. intros HG. destruct (st_kind s).
  - done.
  - intros [_ ->]. induction l as [|d l IH]; [done|]. cbn [List.filter flat_map]. rewrite <-IH by (intros; apply HG; by right).
    destruct (HG d (or_introl eq_refl)) as (b & Hb & ->). unfold holds. rewrite Hb. by destruct b.
  - intros F. induction F as [|d d' l l' H F IH]; [done|]. cbn [flat_map]. rewrite <-IH by (intros; apply HG; by right).
    destruct (HG d (or_introl eq_refl)) as (x & Hx & ->). cbn. f_equal. by eapply projected_fun.
  - intros (ls & F & ->). induction F as [|d x l ls H F IH]; [done|]. cbn [flat_map concat]. rewrite <-IH by (intros; apply HG; by right).
    destruct (HG d (or_introl eq_refl)) as (_ & Hx). f_equal. by eapply unwound_fun.
  - intros (k & v & _ & groups & -> & _ & G & _). destruct l as [|d l]; [|by destruct (HG d (or_introl eq_refl))]. destruct groups as [|[j x] groups]; [done|].
    destruct (proj1 (G j) (or_introl eq_refl)) as (d & [] & _).
Qed.
Lemma does_clean s d r : stage_clean s -> stage_does s d r -> clean d = true -> Forall (fun d => clean d = true) r.
Proof.
  unfold stage_clean, stage_does. destruct (st_kind s); try done.
  - intros _ (b & _ & ->) H. destruct b; [|apply List.Forall_nil]. apply List.Forall_cons; [done|apply List.Forall_nil].
  - intros HC (x & Hx & ->) H. apply List.Forall_cons; [by eapply HC|apply List.Forall_nil].
  - intros HC (_ & Hx) H. apply List.Forall_forall. intros d' Hd'. by eapply HC.
Qed.

Definition single (s : stage) : bool := match st_kind s with KSelect | KProject | KUnwind => true | _ => false end.
(** The stages take objects with [Q] to objects with [Q'], each to those that [g] says. *)
Inductive chain : (jobj -> Prop) -> list stage -> (jobj -> list jobj) -> (jobj -> Prop) -> Prop :=
  | chain_nil (Q Q' : jobj -> Prop) : (forall d, Q d -> Q' d) -> chain Q [] (fun d => [d]) Q'
  | chain_cons (Q Qm Q' : jobj -> Prop) s p g h : single s = true -> (forall d, a_doc Q d -> stage_does s d (g d) /\ Forall Qm (g d)) -> chain Qm p h Q' -> chain Q (s :: p) (fun d => flat_map h (g d)) Q'.
Lemma flat_map_flat {A B C} (g : A -> list B) (h : B -> list C) l : flat_map h (flat_map g l) = flat_map (fun d => flat_map h (g d)) l.
Proof. induction l as [|x l IH]; [done|]. cbn [flat_map]. by rewrite flat_map_app, IH. Qed.
Lemma flat_map_perm {A B} (g : A -> list B) l l' : Permutation l l' -> Permutation (flat_map g l) (flat_map g l').
Proof. induction 1; cbn [flat_map]; [done|by apply Permutation_app_head| |by etrans]. rewrite !app_assoc. apply Permutation_app_tail, Permutation_app_comm. Qed.
Lemma perm_forall {A} (P : A -> Prop) l l' : Permutation l l' -> Forall P l -> Forall P l'.
Proof. intros H. rewrite !List.Forall_forall. intros F x Hx. apply F. eapply Permutation_in; [symmetry; exact H|done]. Qed.
Lemma chain_means sortv Q p g Q' : chain Q p g Q' -> Forall stage_clean p -> forall l R, Forall (a_doc Q) l -> stages_mean sortv p l R -> Permutation (flat_map g l) R.
Proof.
  induction 1 as [Q Q' HQ|Q Qm Q' s p g h HS HG HC IH]; intros CL l R HL HM.
  - inversion_clear HM as [? ? HM'|]. rewrite <-HM'. clear. induction l as [|d l IHl]; [done|]. cbn [flat_map app]. by apply perm_skip.
  - apply Forall_cons in CL as [C1 CL]. inversion_clear HM as [|? ? ? l1 l2 ? P1 M1 M2]. apply (perm_forall _ _ _ P1) in HL. rewrite (flat_map_perm _ _ _ P1).
    assert (l2 = flat_map g l1) as ->. { eapply does_acts; [|exact M1]. intros d Hd. apply HG. by eapply List.Forall_forall in HL. }
    rewrite <-(flat_map_flat g h). apply (IH CL _ _); [|exact M2]. apply List.Forall_forall. intros x Hx. apply in_flat_map in Hx as (d & Hd & Hx). eapply List.Forall_forall in HL; [|exact Hd]. destruct (HG d HL) as [D1 D2].
    pose proof (does_clean s d _ C1 D1 (proj1 HL)) as D3. split; [by eapply List.Forall_forall in D3|by eapply List.Forall_forall in D2].
Qed.
Lemma chain_on Q p g Q' : chain Q p g Q' -> Forall stage_clean p -> stages_on Q p Q'.
Proof.
  induction 1 as [Q Q' HQ|Q Qm Q' s p g h HS HG HC IH]; intros CL; [done|]. apply Forall_cons in CL as [C1 CL]. exists Qm. split; [|by apply IH]. clear IH HC.
  assert (HD : forall d, a_doc Q d -> Forall (a_doc Qm) (g d)).
  { intros d Hd. destruct (HG d Hd) as [D1 D2]. pose proof (does_clean s d _ C1 D1 (proj1 Hd)) as D3. rewrite List.Forall_forall in *. intros x Hx. split; [by apply D3|by apply D2]. }
  unfold single, stage_on, stage_does in *. destruct (st_kind s); try done.
  - intros d Hd. destruct (HG d Hd) as [(b & Hb & E) D]. exists b. split; [done|]. intros ->. rewrite E in D. by apply Forall_cons in D as [? _].
  - intros d Hd. specialize (HD d Hd). destruct (HG d Hd) as [(x & Hx & E) D]. exists x. split; [done|]. rewrite E in HD. by apply Forall_cons in HD as [? _].
  - intros d Hd. specialize (HD d Hd). destruct (HG d Hd) as [[Hn Hu] _]. split; [done|]. by exists (g d).
Qed.
Lemma chain_weak (Q0 Q : jobj -> Prop) p g Q' : chain Q p g Q' -> (forall d, Q0 d -> Q d) -> chain Q0 p g Q'.
Proof.
  intros HC H. destruct HC as [Q Q' HQ|Q Qm Q' s p g h HS HG HC]; [apply chain_nil; auto|]. apply (chain_cons _ Qm); [done| |done]. intros d [H1 H2]. apply HG. split; [done|by apply H].
Qed.
End chain.
