(** Clean documents: identity and equality coincide. *)
From Coq Require Import Floats.SpecFloat.
From Verif Require Import JsonModel JsonSpec CleanSpec ObjModel JsonProofs JsonIdent.

(** Go's equality is equality on values where every float is finite and the
    two sides have equal keys and equal floats. *)
Lemma jclean_list `{FloatFmt} l : jclean (JList l) = true -> Forall (fun v => jclean v = true) l.
Proof.
  simpl. induction l as [|v l IH]; [constructor|]. intros [H1 H2]%andb_true_iff. constructor; [done|by apply IH].
Qed.
Lemma jclean_map `{FloatFmt} m : jclean (JMap m) = true ->
  keys_sorted m = true /\ Forall (fun kv => utf8_ok kv.1 = true /\ jclean kv.2 = true) m.
Proof.
  intros H0. change (keys_sorted m && (fix go (m : jobj) : bool := match m with [] => true | (k, v) :: m => utf8_ok k && jclean v && go m end) m = true) in H0.
  apply andb_true_iff in H0 as [H1 H2]. split; [done|]. clear H1.
  induction m as [|[k v] m IH]; [constructor|].
  apply andb_true_iff in H2 as [H2 H3]. apply andb_true_iff in H2 as [H2 H4]. constructor; [done|by apply IH].
Qed.
Lemma jclean_map_intro `{FloatFmt} m :
  keys_sorted m = true -> Forall (fun kv => utf8_ok kv.1 = true /\ jclean kv.2 = true) m -> jclean (JMap m) = true.
Proof.
  intros H1 H2.
  change (keys_sorted m && (fix go (m : jobj) : bool := match m with [] => true | (k, v) :: m => utf8_ok k && jclean v && go m end) m = true).
  apply andb_true_iff. split; [done|]. clear H1. induction H2 as [|[k v] m [H1 H2] HF IH]; [done|].
  simpl in *. by rewrite H1, H2, IH.
Qed.
Lemma keys_sorted_ok m : keys_sorted m = true -> ksorted m.
Proof.
  induction m as [|[j v] m IH]; [constructor|]. intros E.
  assert (Em : keys_sorted m = true).
  { destruct m as [|[k w] m]; [done|]. simpl in E. destruct (scmp j k); done. }
  specialize (IH Em). unfold ksorted in *. simpl. constructor; [done|].
  destruct m as [|[k w] m]; [constructor|]. simpl in E. destruct (scmp j k) eqn:Ejk; try done.
  simpl in *. inversion IH as [|? ? _ Hk]; subst. constructor; [done|].
  eapply Forall_impl; [exact Hk|]. simpl. intros x Hx. by eapply slt_trans.
Qed.
Lemma ksorted_keys m : ksorted m -> keys_sorted m = true.
Proof.
  unfold ksorted. induction m as [|[j v] m IH]; [done|]. simpl. inversion 1 as [|? ? H1 H2]; subst.
  destruct m as [|[k w] m]; [done|]. simpl in *. inversion H2; subst.
  match goal with Hs : slt j k |- _ => unfold slt in Hs; rewrite Hs end. by apply IH.
Qed.

Section clean.
Context {FF : FloatFmt}.

Lemma jclean_jwf v : jclean v = true -> jwf v.
Proof.
  induction v as [|bo|n|f|s|l IHl|m IHm] using json_rect'; intros C; try constructor.
  - apply jclean_list in C. rewrite Forall_forall in *. intros x Hx. by apply IHl, C.
  - apply jclean_map in C as [C _]. by apply keys_sorted_ok.
  - apply jclean_map in C as [_ C]. rewrite Forall_forall in *. intros x Hx. by apply IHm, C.
Qed.
Lemma clean_owf m : clean m = true -> owf m.
Proof. apply jclean_jwf. Qed.
Lemma jclean_utf8 v : jclean v = true -> jutf8 v.
Proof.
  induction v as [|bo|n|f|s|l IHl|m IHm] using json_rect'; intros C; try by constructor.
  - constructor. apply jclean_list in C. rewrite Forall_forall in *. intros x Hx. by apply IHl, C.
  - constructor. apply jclean_map in C as [_ C]. rewrite Forall_forall in *. intros x Hx. destruct (C x Hx). split; [done|]. by apply IHm.
Qed.
Lemma jclean_finite v : jclean v = true -> jfinite v.
Proof.
  induction v as [|bo|n|f|s|l IHl|m IHm] using json_rect'; intros C; try by constructor.
  - constructor. simpl in C. destruct f; try done. simpl in C. by destruct (fmt_float _).
  - constructor. apply jclean_list in C. rewrite Forall_forall in *. intros x Hx. by apply IHl, C.
  - constructor. apply jclean_map in C as [_ C]. rewrite Forall_forall in *. intros x Hx. destruct (C x Hx). by apply IHm.
Qed.

(** Integers have no point. *)
Definition point_free (s : string) : Prop := has_point s = false.
Lemma has_point_app a b : has_point (a +:+ b) = has_point a || has_point b.
Proof.
  induction a as [|c a IH]; [done|]. change (String c a +:+ b) with (String c (a +:+ b)). cbn [has_point]. by rewrite IH, orb_assoc.
Qed.
Lemma pretty_N_go_point n : forall s, point_free s -> point_free (pretty_N_go n s).
Proof.
  induction (N.lt_wf_0 n) as [n _ IH]. intros s Hs. destruct (decide (n = 0%N)) as [->|Hn]; [by rewrite pretty_N_go_0|].
  rewrite pretty_N_go_step by lia. apply IH; [apply N.div_lt; lia|]. unfold point_free. simpl. rewrite Hs, orb_false_r.
  assert (Hc : (n `mod` 10 < 10)%N) by (apply N.mod_lt; done).
  revert Hc. generalize (n `mod` 10)%N. intros d Hd.
  assert (d = 0 \/ d = 1 \/ d = 2 \/ d = 3 \/ d = 4 \/ d = 5 \/ d = 6 \/ d = 7 \/ d = 8 \/ d = 9)%N as Hx by lia.
  destruct_or?; subst; done.
Qed.
Lemma pretty_N_point (n : N) : point_free (pretty n).
Proof. unfold pretty, pretty_N. case_decide; [done|]. by apply pretty_N_go_point. Qed.
Lemma enc_int_point n : point_free (enc_int n).
Proof.
  unfold enc_int. destruct n as [|p|p]; [done| |].
  - apply (pretty_N_point (N.pos p)).
  - change (point_free (String "-" (pretty (N.pos p)))). unfold point_free. cbn [has_point]. simpl (_ || _). apply (pretty_N_point (N.pos p)).
Qed.

Lemma jsame_clean (Hi : fmt_inj) v : forall w, jclean v = true -> jclean w = true -> jsame v w -> v = w.
Proof.
  induction v as [|bo|n|f|s|l IHl|m IHm] using json_rect'; intros w C1 C2 E; inversion E; subst; clear E; try done.
  all: try match goal with H1 : num_text ?v = Some _, H2 : num_text ?w = Some _ |- ?v = ?w =>
    simpl in H1; try discriminate H1; destruct w as [| |n'|f'| | |]; simpl in H2; try discriminate H2 end.
  - f_equal. apply (inj (pretty (A := Z))). unfold enc_int in *. congruence.
  - exfalso. destruct f'; try discriminate C2. simpl in C2. rewrite H0 in C2. injection H as <-.
    rewrite enc_int_point in C2. done.
  - exfalso. destruct f; try discriminate C1. simpl in C1. rewrite H in C1. injection H0 as <-.
    rewrite enc_int_point in C1. done.
  - f_equal. by eapply Hi.
  - f_equal. apply jclean_list in C1, C2.
    match goal with H : Forall2 _ _ _ |- _ => induction H as [|v w l1 l2 Hvw HF IH] end; [done|].
    apply Forall_cons in C1 as [? ?], C2 as [? ?], IHl as [? ?]. f_equal; [by auto|]. by apply IH.
  - f_equal. apply jclean_map in C1 as [_ C1], C2 as [_ C2].
    match goal with H : Forall2 _ _ _ |- _ => induction H as [|[k v] [k' w] l1 l2 [Hk Hvw] HF IH] end; [done|].
    apply Forall_cons in C1 as [[? ?] ?], C2 as [[? ?] ?], IHm as [? ?]. cbn [fst snd] in *. subst.
    f_equal; [f_equal; by auto|]. by apply IH.
Qed.

Lemma clean_key_inj (Hf : fmt_ok) (Hi : fmt_inj) a b k :
  clean a = true -> clean b = true -> enc (JMap a) = Some k -> enc (JMap b) = Some k -> a = b.
Proof.
  intros Ca Cb Ka Kb.
  destruct (enc_unique Hf (JMap a) (JMap b) k k EmptyString EmptyString) as [S _]; auto using jclean_utf8; try done.
  apply (jsame_clean Hi) in S; [congruence|done|done].
Qed.

(** Go equality. *)
Lemma SFeqb_finite s m e g : SFeqb (S754_finite s m e) g = true -> g = S754_finite s m e.
Proof.
  unfold SFeqb, SFcompare. destruct g as [|[]| |s' m' e']; try (destruct s; done).
  destruct s, s'; try done.
  - destruct (Z.compare_spec e e') as [->| |]; try done.
    destruct (Pos.compare_cont Eq m m') eqn:Em; try done. apply Pcompare_Eq_eq in Em. by subst.
  - destruct (Z.compare_spec e e') as [->| |]; try done.
    destruct (Pos.compare_cont Eq m m') eqn:Em; try done. apply Pcompare_Eq_eq in Em. by subst.
Qed.
Lemma go_equal_clean v : forall w, jclean v = true -> go_equal v w = true -> v = w.
Proof.
  induction v as [|bo|n|f|s|l IHl|m IHm] using json_rect'; intros w C E; destruct w as [|bo'|n'|f'|s'|l'|m']; try done.
  - simpl in E. apply eqb_prop in E. by subst.
  - simpl in E. apply Z.eqb_eq in E. by subst.
  - simpl in C. destruct f; try done. simpl in E. apply SFeqb_finite in E. by subst.
  - simpl in E. apply String.eqb_eq in E. by subst.
  - f_equal. apply jclean_list in C. revert l' E. induction l as [|v l IH]; intros [|w l'] E; try done.
    apply Forall_cons in C as [? ?], IHl as [? ?]. simpl in E. apply andb_true_iff in E as [E1 E2].
    f_equal; [by auto|]. by apply IH.
  - f_equal. apply jclean_map in C as [_ C]. revert m' E. induction m as [|[k v] m IH]; intros [|[k' w] m'] E; try done.
    apply Forall_cons in C as [[? ?] ?], IHm as [? ?]. cbn [fst snd] in *. simpl in E. apply andb_true_iff in E as [E1 E2].
    apply andb_true_iff in E1 as [E0 E1]. apply String.eqb_eq in E0. subst. f_equal; [f_equal; by auto|]. by apply IH.
Qed.
Lemma go_equal_refl_clean v : jclean v = true -> go_equal v v = true.
Proof.
  induction v as [|bo|n|f|s|l IHl|m IHm] using json_rect'; intros C; try done.
  - apply eqb_reflx.
  - apply Z.eqb_refl.
  - simpl in *. destruct f as [| | |s m e]; try done. unfold SFeqb, SFcompare.
    rewrite Z.compare_refl, Pos.compare_cont_refl. by destruct s.
  - apply String.eqb_refl.
  - apply jclean_list in C. induction l as [|v l IH]; [done|]. apply Forall_cons in C as [? ?], IHl as [? ?].
    change (go_equal v v && go_equal (JList l) (JList l) = true). apply andb_true_iff; auto.
  - apply jclean_map in C as [_ C]. induction m as [|[k v] m IH]; [done|]. apply Forall_cons in C as [[? ?] ?], IHm as [? ?].
    change (String.eqb k k && go_equal v v && go_equal (JMap m) (JMap m) = true). rewrite String.eqb_refl. cbn [fst snd] in *.
    apply andb_true_iff; auto.
Qed.
End clean.
