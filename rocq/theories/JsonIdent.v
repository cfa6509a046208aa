(** Two values have the same JSON text iff they are the same JSON value. *)
From Verif Require Import JsonModel JsonSpec JsonProofs.

Section ident.
Context {FF : FloatFmt}.

Lemma enc_list_eq l : enc (JList l) = (ss ← mapM enc l; Some ("[" +:+ join_comma ss +:+ "]")).
Proof.
  reflexivity.
Qed.
Definition enc_pair (kv : string * json) : option string := s ← enc kv.2; Some (enc_str kv.1 +:+ ":" +:+ s).
Lemma enc_map_eq m : enc (JMap m) = (ss ← mapM enc_pair m; Some ("{" +:+ join_comma ss +:+ "}")).
Proof.
  cbn [enc].
  match goal with |- ?a ≫= ?f = ?b ≫= ?f => assert (a = b) as ->; [|done] end.
  induction m as [|[k v] m IH]; [done|]. cbn [mapM]. rewrite <-IH. unfold enc_pair at 1. cbn [fst snd].
  by destruct (enc v).
Qed.

(** The first character of a value. *)
Lemma enc_first (Hf : fmt_ok) v a : enc v = Some a ->
  exists c s, a = String c s /\ c <> "]"%char /\ c <> "}"%char /\ c <> ","%char.
Proof.
  destruct v as [|[]|n|f|s|l|m]; cbn [enc]; intros E.
  1-3: injection E as <-; eexists _, _; split; [reflexivity|done].
  - injection E as <-. destruct (enc_int_num n) as [Hn Hne]. destruct (enc_int n) as [|c s]; [done|].
    eexists _, _; split; [reflexivity|]. apply andb_prop in Hn as [Hc _]. split_and!; intros ->; discriminate.
  - apply Hf in E as [Hne Hn]. destruct a as [|c s]; [done|].
    eexists _, _; split; [reflexivity|]. apply andb_prop in Hn as [Hc _]. split_and!; intros ->; discriminate.
  - injection E as <-. eexists _, _; split; [reflexivity|]. split_and!; discriminate.
  - apply bind_Some in E as (ss & _ & [= <-]). eexists _, _; split; [reflexivity|]. split_and!; discriminate.
  - apply bind_Some in E as (ss & _ & [= <-]). eexists _, _; split; [reflexivity|]. split_and!; discriminate.
Qed.

(** Comma-separated sequences. *)
Lemma join_unique {A} (f : A -> option string) (R : A -> A -> Prop) (close : ascii) (l1 l2 : list A) ss tt x y :
  num_char close = false -> close <> ","%char ->
  (forall v a, f v = Some a -> exists c s, a = String c s /\ c <> close /\ c <> ","%char) ->
  Forall (fun v => forall w a b x y, w ∈ l2 -> f v = Some a -> f w = Some b -> nonum x -> nonum y ->
            a +:+ x = b +:+ y -> R v w /\ x = y) l1 ->
  mapM f l1 = Some ss -> mapM f l2 = Some tt ->
  join_comma ss +:+ String close x = join_comma tt +:+ String close y ->
  Forall2 R l1 l2 /\ x = y.
Proof.
  intros Hcl Hcc Hfirst HR. revert l2 ss tt HR. induction l1 as [|v l1 IH]; intros [|w l2] ss tt HR H1 H2 E.
  - injection H1 as <-. injection H2 as <-. injection E as ->. done.
  - injection H1 as <-. cbn [mapM] in H2. apply bind_Some in H2 as (b & Hb & H2).
    apply bind_Some in H2 as (bs & _ & [= <-]). destruct (Hfirst _ _ Hb) as (c & s & -> & Hc1 & Hc2).
    destruct bs; simpl in E; injection E as E _; congruence.
  - injection H2 as <-. cbn [mapM] in H1. apply bind_Some in H1 as (b & Hb & H2).
    apply bind_Some in H2 as (bs & _ & [= <-]). destruct (Hfirst _ _ Hb) as (c & s & -> & Hc1 & Hc2).
    destruct bs; simpl in E; injection E as E _; congruence.
  - cbn [mapM] in H1, H2.
    apply bind_Some in H1 as (a & Ha & H1). apply bind_Some in H1 as (as' & Has & [= <-]).
    apply bind_Some in H2 as (b & Hb & H2). apply bind_Some in H2 as (bs & Hbs & [= <-]).
    apply Forall_cons in HR as [Hv HR].
    assert (Hw : w ∈ w :: l2) by apply elem_of_list_here.
    assert (L1 : length as' = length l1) by (symmetry; by eapply mapM_length).
    assert (L2 : length bs = length l2) by (symmetry; by eapply mapM_length).
    assert (HR' : Forall (λ v, ∀ w a b x y, w ∈ l2 → f v = Some a → f w = Some b → nonum x → nonum y →
                     a +:+ x = b +:+ y → R v w ∧ x = y) l1).
    { eapply Forall_impl; [exact HR|]. intros v' Hv' w' ????? . apply Hv'. by apply elem_of_list_further. }
    assert (J : forall (p : string) l z, join_comma (p :: l) +:+ z =
       p +:+ match l with [] => z | _ => String "," (join_comma l +:+ z) end).
    { intros p [|q l] z; [done|]. change (join_comma (p :: q :: l)) with (p +:+ "," +:+ join_comma (q :: l)).
      by rewrite !app_assoc_s. }
    rewrite !J in E.
    assert (R v w ∧ (match as' with [] => String close x | _ => String "," (join_comma as' +:+ String close x) end)
       = (match bs with [] => String close y | _ => String "," (join_comma bs +:+ String close y) end)) as [HRvw E'].
    { eapply Hv; [exact Hw|exact Ha|exact Hb| | |exact E]; [destruct as'|destruct bs]; simpl; done. }
    destruct as' as [|a' as'], bs as [|b' bs].
    + destruct l1; [|done]. destruct l2; [|done]. injection E' as ->. auto.
    + injection E' as E' _. congruence.
    + injection E' as E' _. congruence.
    + injection E' as E'. destruct (IH l2 _ _ HR' Has Hbs E') as [HF ->]. auto.
Qed.

(** What a value can start with. *)
Definition head_class (s : string) : nat :=
  match s with
  | EmptyString => 0
  | String c _ =>
      if num_char c then 1 else if decide (c = "n"%char) then 2 else if decide (c = "t"%char) then 3
      else if decide (c = "f"%char) then 4 else if decide (c = ch 34) then 5
      else if decide (c = "["%char) then 6 else if decide (c = "{"%char) then 7 else 8
  end.
Definition vclass (v : json) : nat :=
  match v with
  | JNull => 2 | JBool true => 3 | JBool false => 4 | JInt _ | JFloat _ => 1
  | JStr _ => 5 | JList _ => 6 | JMap _ => 7
  end.
Lemma enc_class (Hf : fmt_ok) v a x : enc v = Some a -> head_class (a +:+ x) = vclass v.
Proof.
  destruct v as [|[]|n|f|s|l|m]; cbn [enc]; intros E.
  1-3: by injection E as <-.
  - injection E as <-. destruct (enc_int_num n) as [Hn Hne]. destruct (enc_int n) as [|c s]; [done|].
    apply andb_prop in Hn as [Hc _]. simpl. by rewrite Hc.
  - apply Hf in E as [Hne Hn]. destruct a as [|c s]; [done|].
    apply andb_prop in Hn as [Hc _]. simpl. by rewrite Hc.
  - injection E as <-. done.
  - apply bind_Some in E as (ss & _ & [= <-]). done.
  - apply bind_Some in E as (ss & _ & [= <-]). done.
Qed.

Lemma enc_unique (Hf : fmt_ok) v : forall w a b x y,
  jutf8 v -> jutf8 w -> enc v = Some a -> enc w = Some b -> nonum x -> nonum y ->
  a +:+ x = b +:+ y -> jsame v w /\ x = y.
Proof.
  induction v as [|bo|n|f|s|l IHl|m IHm] using json_rect'; intros w a b x y Uv Uw Ea Eb Nx Ny E.
  - assert (C : vclass w = 2%nat) by (rewrite <-(enc_class Hf w b y Eb), <-E; by rewrite (enc_class Hf _ _ _ Ea)).
    destruct w as [|[]| | | | |]; try discriminate C. injection Ea as <-. injection Eb as <-.
    injection E as ->. split; [constructor|done].
  - assert (C : vclass w = vclass (JBool bo)) by (rewrite <-(enc_class Hf w b y Eb), <-E; by rewrite (enc_class Hf _ _ _ Ea)).
    destruct bo, w as [|[]| | | | |]; try discriminate C; injection Ea as <-; injection Eb as <-;
    injection E as ->; (split; [constructor|done]).
  - assert (C : vclass w = 1%nat) by (rewrite <-(enc_class Hf w b y Eb), <-E; by rewrite (enc_class Hf _ _ _ Ea)).
    assert (Hb : all_num b = true /\ num_text w = Some b).
    { destruct w as [|[]| | | | |]; try discriminate C; cbn [enc] in Eb; [injection Eb as <-; split; [apply enc_int_num|done]|].
      split; [by apply (Hf _ _ Eb)|done]. }
    injection Ea as <-. destruct (num_unique (enc_int n) b x y) as [E1 ->]; try done.
    { by apply enc_int_num. } { apply Hb. }
    split; [|done]. eapply same_num; [reflexivity|]. rewrite E1. apply Hb.
  - assert (C : vclass w = 1%nat) by (rewrite <-(enc_class Hf w b y Eb), <-E; by rewrite (enc_class Hf _ _ _ Ea)).
    assert (Hb : all_num b = true /\ num_text w = Some b).
    { destruct w as [|[]| | | | |]; try discriminate C; cbn [enc] in Eb; [injection Eb as <-; split; [apply enc_int_num|done]|].
      split; [by apply (Hf _ _ Eb)|done]. }
    cbn [enc] in Ea. destruct (num_unique a b x y) as [E1 ->]; try done.
    { by apply (Hf _ _ Ea). } { apply Hb. }
    split; [|done]. eapply same_num; [exact Ea|]. rewrite E1. apply Hb.
  - assert (C : vclass w = 5%nat) by (rewrite <-(enc_class Hf w b y Eb), <-E; by rewrite (enc_class Hf _ _ _ Ea)).
    destruct w as [|[]| | | | |]; try discriminate C. injection Ea as <-. injection Eb as <-.
    inversion Uv; inversion Uw; subst. apply enc_str_unique in E as [-> ->]; [|done..].
    split; [constructor|done].
  - assert (C : vclass w = 6%nat) by (rewrite <-(enc_class Hf w b y Eb), <-E; by rewrite (enc_class Hf _ _ _ Ea)).
    destruct w as [|[]| | | |l2|]; try discriminate C. rewrite enc_list_eq in Ea, Eb.
    apply bind_Some in Ea as (ss & Hs & [= <-]). apply bind_Some in Eb as (tt & Ht & [= <-]).
    rewrite !app_assoc_s in E. simpl in E. injection E as E.
    inversion Uv as [| | | | |? Ul|]; subst. inversion Uw as [| | | | |? Ul2|]; subst.
    destruct (join_unique enc jsame "]"%char l l2 ss tt x y) as [HF ->]; try done.
    { intros v a Hv. destruct (enc_first Hf v a Hv) as (c & s & -> & ? & ? & ?). eauto 10. }
    { apply Forall_forall. intros v Hv w' a b x' y' Hw' ?????. rewrite Forall_forall in IHl, Ul, Ul2.
      by eapply (IHl v Hv); eauto. }
    split; [by constructor|done].
  - assert (C : vclass w = 7%nat) by (rewrite <-(enc_class Hf w b y Eb), <-E; by rewrite (enc_class Hf _ _ _ Ea)).
    destruct w as [|[]| | | | |m2]; try discriminate C. rewrite enc_map_eq in Ea, Eb.
    apply bind_Some in Ea as (ss & Hs & [= <-]). apply bind_Some in Eb as (tt & Ht & [= <-]).
    rewrite !app_assoc_s in E. simpl in E. injection E as E.
    inversion Uv as [| | | | | |? Um]; subst. inversion Uw as [| | | | | |? Um2]; subst.
    destruct (join_unique enc_pair (fun a b => a.1 = b.1 /\ jsame a.2 b.2) "}"%char m m2 ss tt x y) as [HF ->]; try done.
    { intros v a Hv. unfold enc_pair in Hv. apply bind_Some in Hv as (s & _ & [= <-]).
      eexists _, _. split; [reflexivity|]. split; discriminate. }
    { apply Forall_forall. intros [k v] Hv [k' w'] a b x' y' Hw' Ha Hb Nx' Ny' E'. rewrite Forall_forall in IHm, Um, Um2.
      destruct (Um _ Hv) as [Uk Uvv]. destruct (Um2 _ Hw') as [Uk' Uww].
      unfold enc_pair in Ha, Hb. cbn [fst snd] in *.
      apply bind_Some in Ha as (sa & Ha & [= <-]). apply bind_Some in Hb as (sb & Hb & [= <-]).
      rewrite !app_assoc_s in E'. apply enc_str_unique in E' as [-> E']; [|done..]. simpl in E'. injection E' as E'.
      destruct (IHm _ Hv w' sa sb x' y') as [? ->]; auto. }
    split; [by constructor|done].
Qed.

Lemma num_enc v t : num_text v = Some t -> enc v = Some t.
Proof. by destruct v. Qed.
Lemma enc_same v : forall w, jsame v w -> enc v = enc w.
Proof.
  induction v as [|bo|n|f|s|l IHl|m IHm] using json_rect'; intros w H; inversion H; subst; clear H; try done.
  all: try match goal with H1 : num_text ?v = Some _, H2 : num_text ?w = Some _ |- enc ?v = enc ?w =>
    rewrite (num_enc _ _ H1), (num_enc _ _ H2); reflexivity end.
  - rewrite !enc_list_eq. assert (mapM enc l = mapM enc l2) as ->; [|done]. match goal with H : Forall2 _ _ _ |- _ => revert IHl; induction H as [|v w l1 l2 Hvw _ IH] end; [done|].
    intros [Hv HF]%Forall_cons. cbn [mapM]. rewrite (Hv _ Hvw). by rewrite IH.
  - rewrite !enc_map_eq. assert (mapM enc_pair m = mapM enc_pair m2) as ->; [|done]. match goal with H : Forall2 _ _ _ |- _ => revert IHm; induction H as [|[k v] [k' w] l1 l2 [Hk Hvw] _ IH] end; [done|].
    intros [Hv HF]%Forall_cons. cbn [mapM]. cbn [fst snd] in *. subst.
    assert (enc_pair (k', v) = enc_pair (k', w)) as ->. { unfold enc_pair. cbn [fst snd]. by rewrite (Hv _ Hvw). }
    by rewrite IH.
Qed.

Lemma enc_finite v : jfinite v -> is_Some (enc v).
Proof.
  induction v as [|bo|n|f|s|l IHl|m IHm] using json_rect'; intros H; inversion H; subst; try done.
  - by destruct bo.
  - rewrite enc_list_eq. destruct (mapM enc l) eqn:E; [by eexists|].
    apply mapM_None in E. apply Exists_exists in E as (v & Hv & E). rewrite Forall_forall in IHl.
    match goal with H : Forall jfinite l |- _ => rewrite Forall_forall in H; destruct (IHl v Hv (H v Hv)) end. congruence.
  - rewrite enc_map_eq. destruct (mapM enc_pair m) eqn:E; [by eexists|].
    apply mapM_None in E. apply Exists_exists in E as (v & Hv & E). rewrite Forall_forall in IHm.
    match goal with H : Forall _ m |- _ => rewrite Forall_forall in H; destruct (IHm v Hv (H v Hv)) as [s Hs] end.
    unfold enc_pair in E. by rewrite Hs in E.
Qed.
Lemma finite_enc v : is_Some (enc v) -> jfinite v.
Proof.
  induction v as [|bo|n|f|s|l IHl|m IHm] using json_rect'; intros H; try by constructor.
  - rewrite enc_list_eq in H. destruct (mapM enc l) as [ss|] eqn:E; [|by destruct H].
    constructor. apply Forall_forall. intros v Hv. rewrite Forall_forall in IHl. apply (IHl v Hv).
    destruct (enc v) eqn:Ev; [done|]. exfalso.
    assert (mapM enc l = None) by (apply mapM_None, Exists_exists; eauto). congruence.
  - rewrite enc_map_eq in H. destruct (mapM enc_pair m) as [ss|] eqn:E; [|by destruct H].
    constructor. apply Forall_forall. intros v Hv. rewrite Forall_forall in IHm. apply (IHm v Hv).
    destruct (enc v.2) eqn:Ev; [done|]. exfalso.
    assert (mapM enc_pair m = None); [|congruence].
    apply mapM_None, Exists_exists. exists v. split; [done|]. unfold enc_pair. by rewrite Ev.
Qed.

(** Reflexivity-like facts about [jsame]. *)
Lemma jsame_refl v : jfinite v -> jsame v v.
Proof.
  induction v as [|bo|n|f|s|l IHl|m IHm] using json_rect'; intros H; inversion H; subst; try by constructor.
  - by eapply same_num.
  - match goal with H : is_Some _ |- _ => destruct H end. by eapply same_num.
  - constructor. apply Forall2_same_length_lookup_2; [done|]. intros i x y Hx Hy. assert (x = y) by congruence. subst y.
    apply elem_of_list_lookup_2 in Hx. rewrite Forall_forall in IHl. apply (IHl x Hx).
    match goal with H : Forall jfinite l |- _ => rewrite Forall_forall in H; by apply H end.
  - constructor. apply Forall2_same_length_lookup_2; [done|]. intros i x y Hx Hy. assert (x = y) by congruence. subst y.
    apply elem_of_list_lookup_2 in Hx. rewrite Forall_forall in IHm. split; [done|]. apply (IHm x Hx).
    match goal with H : Forall _ m |- _ => rewrite Forall_forall in H; by apply H end.
Qed.

Lemma jsame_nofloat v : forall w, jnofloat v -> jnofloat w -> jsame v w -> v = w.
Proof.
  induction v as [|bo|n|f|s|l IHl|m IHm] using json_rect'; intros w N1 N2 H; inversion H; subst; clear H; try done.
  all: try match goal with H1 : num_text ?v = Some _, H2 : num_text ?w = Some _ |- ?v = ?w =>
    simpl in H1; try discriminate H1; destruct w; simpl in H2; try discriminate H2 end.
  - f_equal. apply (inj (pretty (A := Z))). unfold enc_int in *. congruence.
  - by inversion N2.
  - by inversion N1.
  - by inversion N1.
  - f_equal. inversion N1; inversion N2; subst.
    match goal with H : Forall2 _ _ _ |- _ => induction H as [|v w l1 l2 Hvw HF IH] end; [done|].
    repeat match goal with H : Forall _ (_ :: _) |- _ => apply Forall_cons in H as [? ?] end.
    f_equal; [by auto|]. apply IH; auto; constructor; auto.
  - f_equal. inversion N1; inversion N2; subst.
    match goal with H : Forall2 _ _ _ |- _ => induction H as [|[k v] [k' w] l1 l2 [Hk Hvw] HF IH] end; [done|].
    repeat match goal with H : Forall _ (_ :: _) |- _ => apply Forall_cons in H as [? ?] end. cbn [fst snd] in *.
    subst. f_equal; [f_equal; by auto|]. apply IH; auto; constructor; auto.
Qed.

(** C25 *)
Lemma c25_identity (Hf : fmt_ok) (d1 d2 : jobj) k1 k2 :
  jutf8 (JMap d1) -> jutf8 (JMap d2) -> key d1 = Some k1 -> key d2 = Some k2 ->
  (k1 = k2 <-> jsame (JMap d1) (JMap d2)).
Proof.
  intros U1 U2 K1 K2. split.
  - intros ->. destruct (enc_unique Hf (JMap d1) (JMap d2) k2 k2 EmptyString EmptyString) as [H _]; auto; done.
  - intros H%enc_same. simpl in K1, K2. unfold key in *. simpl in *. congruence.
Qed.
Lemma c25_defined (d : jobj) : is_Some (key d) <-> jfinite (JMap d).
Proof. split; [apply (finite_enc (JMap d))|apply (enc_finite (JMap d))]. Qed.
Lemma c25_nofloat (Hf : fmt_ok) (d1 d2 : jobj) :
  jutf8 (JMap d1) -> jutf8 (JMap d2) -> jnofloat (JMap d1) -> jnofloat (JMap d2) ->
  key d1 = key d2 -> d1 = d2.
Proof.
  intros U1 U2 N1 N2 E.
  assert (F : forall v, jnofloat v -> jfinite v).
  { intros v. induction v using json_rect'; inversion 1; subst; constructor;
      match goal with H1 : Forall _ ?l, H2 : Forall _ ?l |- _ => rewrite Forall_forall in *; eauto end. }
  destruct (enc_finite _ (F _ N1)) as [k1 K1], (enc_finite _ (F _ N2)) as [k2 K2].
  assert (jsame (JMap d1) (JMap d2)).
  { apply (c25_identity Hf d1 d2 k1 k2 U1 U2 K1 K2). unfold key in E. simpl in E, K1, K2. congruence. }
  assert (JMap d1 = JMap d2) by (by apply jsame_nofloat). congruence.
Qed.
Lemma c25_int_float f n : fmt_float f = Some (enc_int n) ->
  exists d1 d2 : jobj, d1 <> d2 /\ is_Some (key d1) /\ key d1 = key d2.
Proof.
  intros H. exists [("a"%string, JInt n)], [("a"%string, JFloat f)]. split; [intros [=]|].
  split; [by eexists|]. simpl. rewrite H. done.
Qed.
End ident.
