(** Proofs about JSON values: induction, map operations, injectivity of the
    JSON text. *)
From Verif Require Import JsonModel JsonSpec.

(** *** Induction *)
Lemma json_rect' (P : json -> Prop) :
  P JNull -> (forall b, P (JBool b)) -> (forall n, P (JInt n)) -> (forall f, P (JFloat f)) ->
  (forall s, P (JStr s)) -> (forall l, Forall P l -> P (JList l)) ->
  (forall m, Forall (fun kv => P kv.2) m -> P (JMap m)) -> forall v, P v.
Proof.
  intros H1 H2 H3 H4 H5 H6 H7. fix IH 1. intros [|b|n|f|s|l|m]; [exact H1|apply H2|apply H3|apply H4|apply H5| |].
  - apply H6. induction l as [|v l IHl]; [by apply Forall_nil_2|apply Forall_cons_2; [apply IH|apply IHl]].
  - apply H7. induction m as [|[k v] m IHm]; [by apply Forall_nil_2|apply Forall_cons_2; [apply IH|apply IHm]].
Qed.

#[global] Instance spec_float_eq : EqDecision spec_float.
Proof. solve_decision. Defined.
#[global] Instance json_eq : EqDecision json.
Proof.
  refine (fix go (v w : json) : {v = w} + {v <> w} :=
    match v, w with
    | JNull, JNull => left eq_refl
    | JBool a, JBool b => match decide (a = b) with left e => left _ | right n => right _ end
    | JInt a, JInt b => match decide (a = b) with left e => left _ | right n => right _ end
    | JFloat a, JFloat b => match decide (a = b) with left e => left _ | right n => right _ end
    | JStr a, JStr b => match decide (a = b) with left e => left _ | right n => right _ end
    | JList a, JList b => match @list_eq_dec json go a b with left e => left _ | right n => right _ end
    | JMap a, JMap b =>
        match @list_eq_dec (string * json) (fun x y => @prod_eq_dec string _ json go x y) a b with
        | left e => left _ | right n => right _ end
    | _, _ => right _
    end); try congruence; by intros [=].
Defined.

(** *** The order on strings *)
Lemma scmp_refl s : scmp s s = Eq.
Proof. induction s as [|c s IH]; simpl; [done|]. by rewrite N.compare_refl. Qed.
Lemma scmp_eq a b : scmp a b = Eq <-> a = b.
Proof.
  split; [|intros ->; apply scmp_refl].
  revert b. induction a as [|x a IH]; intros [|y b]; simpl; try done.
  destruct (N.compare_spec (N_of_ascii x) (N_of_ascii y)) as [E|E|E]; try done.
  intros H. f_equal; [|by apply IH].
  rewrite <-(ascii_N_embedding x), <-(ascii_N_embedding y). by f_equal.
Qed.
Lemma scmp_antisym a b : scmp b a = CompOpp (scmp a b).
Proof.
  revert b. induction a as [|x a IH]; intros [|y b]; simpl; try done.
  rewrite (N.compare_antisym (N_of_ascii x)). by destruct (N.compare _ _); simpl.
Qed.
Lemma scmp_gt a b : scmp a b = Gt <-> slt b a.
Proof. unfold slt. rewrite (scmp_antisym a b). destruct (scmp a b); simpl; split; congruence. Qed.
Lemma slt_irrefl a : ~ slt a a.
Proof. unfold slt. by rewrite scmp_refl. Qed.
Lemma slt_trans a b c : slt a b -> slt b c -> slt a c.
Proof.
  unfold slt. revert b c. induction a as [|x a IH]; intros [|y b] [|z c]; simpl; try done.
  destruct (N.compare_spec (N_of_ascii x) (N_of_ascii y)) as [E1|E1|E1];
  destruct (N.compare_spec (N_of_ascii y) (N_of_ascii z)) as [E2|E2|E2]; try done; intros H1 H2.
  - rewrite E1, E2, N.compare_refl. by apply (IH b).
  - rewrite E1. by apply N.compare_lt_iff in E2 as ->.
  - rewrite <-E2. by apply N.compare_lt_iff in E1 as ->.
  - assert (E3 : (N_of_ascii x < N_of_ascii z)%N) by lia. by apply N.compare_lt_iff in E3 as ->.
Qed.

(** *** Map operations *)
Lemma ksorted_cons k v m : ksorted ((k, v) :: m) <-> ksorted m /\ Forall (fun kv => slt k kv.1) m.
Proof.
  unfold ksorted. simpl. split.
  - inversion 1; subst. split; [done|]. by apply Forall_map.
  - intros [H1 H2]. constructor; [done|]. by apply Forall_map.
Qed.
Lemma mget_lt m k : Forall (fun kv => slt k kv.1) m -> mget m k = None.
Proof.
  induction 1 as [|[k' v] m H _ IH]; simpl; [done|]. case_decide; [|done]. subst.
  by apply slt_irrefl in H.
Qed.
Lemma mget_set_eq m k v : mget (mset m k v) k = Some v.
Proof.
  induction m as [|[k' v'] m IH]; simpl.
  - by rewrite decide_True.
  - destruct (scmp k k') eqn:E; simpl.
    + by rewrite decide_True.
    + by rewrite decide_True.
    + rewrite decide_False; [done|]. intros ->. by rewrite scmp_refl in E.
Qed.
Lemma mget_set_ne m k k' v : k <> k' -> mget (mset m k v) k' = mget m k'.
Proof.
  intros Hn. induction m as [|[k0 v0] m IH]; simpl.
  - by rewrite decide_False by done.
  - destruct (scmp k k0) eqn:E; simpl.
    + apply scmp_eq in E. subst k0. by rewrite !decide_False by done.
    + by rewrite (decide_False (P := k' = k)) by done.
    + by rewrite IH.
Qed.
Lemma mget_del_eq m k : ksorted m -> mget (mdel m k) k = None.
Proof.
  induction m as [|[k' v] m IH]; simpl; [done|]. intros [H1 H2]%ksorted_cons.
  case_decide; [subst; by apply mget_lt|]. simpl. rewrite decide_False by done. by apply IH.
Qed.
Lemma mget_del_ne m k k' : k <> k' -> mget (mdel m k) k' = mget m k'.
Proof.
  intros Hn. induction m as [|[k0 v0] m IH]; simpl; [done|].
  case_decide; subst; simpl.
  - by rewrite decide_False by done.
  - by rewrite IH.
Qed.
Lemma mset_keys m k v : forall x, x ∈ map fst (mset m k v) -> x = k \/ x ∈ map fst m.
Proof.
  induction m as [|[k' v'] m IH]; simpl; intros x.
  - rewrite elem_of_list_singleton. tauto.
  - destruct (scmp k k') eqn:E; simpl; rewrite ?elem_of_cons; try naive_solver.
Qed.
Lemma ksorted_set m k v : ksorted m -> ksorted (mset m k v).
Proof.
  induction m as [|[k' v'] m IH]; simpl; intros H.
  - unfold ksorted. simpl. constructor; constructor.
  - apply ksorted_cons in H as [H1 H2]. destruct (scmp k k') eqn:E.
    + apply scmp_eq in E. subst. by apply ksorted_cons.
    + apply ksorted_cons. split; [by apply ksorted_cons|]. constructor; [done|].
      eapply Forall_impl; [exact H2|]. intros ? ?. by eapply slt_trans.
    + apply ksorted_cons. split; [by apply IH|]. apply scmp_gt in E.
      apply Forall_forall. intros [x w] Hx.
      assert (Hx' : x ∈ map fst (mset m k v)) by (apply elem_of_list_fmap; by exists (x, w)).
      apply mset_keys in Hx' as [->|Hx']; [done|].
      apply elem_of_list_fmap in Hx' as ([y u] & -> & Hy).
      rewrite Forall_forall in H2. by apply (H2 (y, u)).
Qed.
Lemma mdel_sub m k : forall x, x ∈ mdel m k -> x ∈ m.
Proof.
  induction m as [|[k' v'] m IH]; simpl; intros x; [done|]. case_decide; rewrite ?elem_of_cons; naive_solver.
Qed.
Lemma ksorted_del m k : ksorted m -> ksorted (mdel m k).
Proof.
  induction m as [|[k' v'] m IH]; simpl; intros H; [done|].
  apply ksorted_cons in H as [H1 H2]. case_decide; [done|]. apply ksorted_cons. split; [by apply IH|].
  apply Forall_forall. intros x Hx%mdel_sub. rewrite Forall_forall in H2. by apply H2.
Qed.
Lemma mget_in m k v : mget m k = Some v -> (k, v) ∈ m.
Proof.
  induction m as [|[k' v'] m IH]; simpl; [done|]. case_decide; rewrite elem_of_cons; [intros [=]; subst|]; auto.
Qed.
Lemma in_mget m k v : ksorted m -> (k, v) ∈ m -> mget m k = Some v.
Proof.
  induction m as [|[k' v'] m IH]; simpl; intros H; [by rewrite elem_of_nil|].
  apply ksorted_cons in H as [H1 H2]. rewrite elem_of_cons. intros [[=]|Hi]; subst.
  - by rewrite decide_True.
  - rewrite decide_False; [by apply IH|]. intros ->. rewrite Forall_forall in H2.
    apply H2 in Hi. by apply slt_irrefl in Hi.
Qed.
(** Extensionality of sorted maps. *)
Lemma mget_ext m1 m2 : ksorted m1 -> ksorted m2 -> (forall k, mget m1 k = mget m2 k) -> m1 = m2.
Proof.
  revert m2. induction m1 as [|[k v] m1 IH]; intros [|[k' v'] m2] H1 H2 E.
  - done.
  - specialize (E k'). simpl in E. by rewrite decide_True in E.
  - specialize (E k). simpl in E. by rewrite decide_True in E.
  - apply ksorted_cons in H1 as [H1 L1], H2 as [H2 L2].
    assert (k = k') as <-.
    { destruct (scmp k k') eqn:C; [by apply scmp_eq in C| |].
      - pose proof (E k) as Ek. simpl in Ek. rewrite decide_True in Ek by done.
        rewrite decide_False in Ek; [|intros ->; by rewrite scmp_refl in C].
        rewrite mget_lt in Ek; [done|]. eapply Forall_impl; [exact L2|]. intros ? ?. by eapply slt_trans.
      - apply scmp_gt in C. pose proof (E k') as Ek. simpl in Ek.
        rewrite (decide_True (P := k' = k')) in Ek by done.
        rewrite decide_False in Ek; [|intros ->; by apply slt_irrefl in C].
        rewrite mget_lt in Ek; [done|]. eapply Forall_impl; [exact L1|]. intros ? ?. by eapply slt_trans. }
    assert (v = v') as <-. { specialize (E k). simpl in E. rewrite !decide_True in E by done. congruence. }
    f_equal. apply IH; [done..|]. intros x. specialize (E x). simpl in E.
    case_decide; [|done]. subst. by rewrite !mget_lt.
Qed.
Lemma mset_same m k v : ksorted m -> mget m k = Some v -> mset m k v = m.
Proof.
  intros W H. apply mget_ext; [by apply ksorted_set|done|]. intros k'.
  destruct (decide (k = k')) as [<-|]; [by rewrite mget_set_eq|by rewrite mget_set_ne].
Qed.
Lemma mset_set m k v w : ksorted m -> mset (mset m k v) k w = mset m k w.
Proof.
  intros W. apply mget_ext; [by repeat apply ksorted_set|by apply ksorted_set|]. intros k'.
  destruct (decide (k = k')) as [<-|]; [by rewrite !mget_set_eq|by rewrite !mget_set_ne].
Qed.
Lemma mset_comm m k k' v w : ksorted m -> k <> k' -> mset (mset m k v) k' w = mset (mset m k' w) k v.
Proof.
  intros W Hn. apply mget_ext; [by repeat apply ksorted_set..|]. intros x.
  destruct (decide (x = k)) as [->|].
  - rewrite mget_set_ne, !mget_set_eq; done.
  - destruct (decide (x = k')) as [->|].
    + rewrite mget_set_eq, mget_set_ne, mget_set_eq; done.
    + by rewrite !mget_set_ne.
Qed.
Lemma mdel_notin m k : mget m k = None -> mdel m k = m.
Proof. induction m as [|[k' v] m IH]; simpl; [done|]. case_decide; [done|]. intros. by rewrite IH. Qed.

(** Well-formedness of values. *)
Lemma owf_sorted m : owf m -> ksorted m.
Proof. by inversion 1. Qed.
Lemma owf_get m k v : owf m -> mget m k = Some v -> jwf v.
Proof.
  inversion 1 as [| | | | | |? H1 H2]; subst. intros Hg%mget_in. rewrite Forall_forall in H2. by apply (H2 (k, v)).
Qed.
Lemma owf_iff m : owf m <-> ksorted m /\ forall k v, mget m k = Some v -> jwf v.
Proof.
  split; [intros H; split; [by apply owf_sorted|by intros ? ?; apply owf_get]|].
  intros [H1 H2]. constructor; [done|]. apply Forall_forall. intros [k v] Hi.
  apply (H2 k). by apply in_mget.
Qed.
Lemma owf_set m k v : owf m -> jwf v -> owf (mset m k v).
Proof.
  rewrite !owf_iff. intros [H1 H2] Hv. split; [by apply ksorted_set|]. intros k' v' Hg.
  destruct (decide (k = k')) as [<-|]; [rewrite mget_set_eq in Hg; congruence|].
  rewrite mget_set_ne in Hg by done. eauto.
Qed.
Lemma owf_del m k : owf m -> owf (mdel m k).
Proof.
  rewrite !owf_iff. intros [H1 H2]. split; [by apply ksorted_del|]. intros k' v' Hg.
  destruct (decide (k = k')) as [<-|]; [by rewrite mget_del_eq in Hg|].
  rewrite mget_del_ne in Hg by done. eauto.
Qed.
Lemma owf_nil : owf [].
Proof. apply owf_iff. split; [constructor|done]. Qed.

(** *** JSON text *)
Lemma app_assoc_s (a b c : string) : (a +:+ b) +:+ c = a +:+ (b +:+ c).
Proof. induction a as [|x a IH]; simpl; [done|]. change (String x ((a +:+ b) +:+ c) = String x (a +:+ (b +:+ c))). by rewrite IH. Qed.

(** Reading back the body of a string literal. *)
Definition hexval (c : ascii) : N :=
  let n := N_of_ascii c in if (n <? 58)%N then (n - 48)%N else (n - 87)%N.
Fixpoint dec_body (s : string) : option (string * string) :=
  match s with
  | EmptyString => None
  | String a s1 =>
      if decide (a = ch 34) then Some (EmptyString, s1)
      else if decide (a = ch 92) then
        match s1 with
        | String b s2 =>
            if decide (b = "u"%char) then
              match s2 with
              | String c1 (String c2 (String c3 (String c4 s3))) =>
                  '(p, q) ← dec_body s3;
                  if decide (c1 = "2"%char)
                  then Some (String (ch 226) (String (ch 128) (String (if decide (c4 = "8"%char) then ch 168 else ch 169) p)), q)
                  else Some (String (ch (hexval c3 * 16 + hexval c4)) p, q)
              | _ => None
              end
            else
              '(p, q) ← dec_body s2;
              Some (String (if decide (b = "b"%char) then ch 8 else if decide (b = "f"%char) then ch 12
                            else if decide (b = "n"%char) then ch 10 else if decide (b = "r"%char) then ch 13
                            else if decide (b = "t"%char) then ch 9 else b) p, q)
        | EmptyString => None
        end
      else '(p, q) ← dec_body s1; Some (String a p, q)
  end.

Lemma dec_ascii a z p q :
  (N_of_ascii a <? 128)%N = true -> dec_body z = Some (p, q) -> dec_body (enc_ascii a +:+ z) = Some (String a p, q).
Proof.
  intros Ha Hz. destruct a as [[] [] [] [] [] [] [] []]; vm_compute in Ha; try discriminate Ha; clear Ha;
    match goal with |- dec_body (enc_ascii ?a +:+ z) = _ =>
      let e := eval vm_compute in (enc_ascii a) in change (enc_ascii a) with e end;
    simpl; rewrite Hz; reflexivity.
Qed.

Lemma dec_high a z p q :
  (N_of_ascii a <? 128)%N = false -> dec_body z = Some (p, q) -> dec_body (String a z) = Some (String a p, q).
Proof.
  intros Ha Hz. cbn [dec_body]. rewrite decide_False by (intros ->; done). rewrite decide_False by (intros ->; done).
  by rewrite Hz.
Qed.
Lemma byte_in_high lo hi c : byte_in lo hi c = true -> (128 <= lo)%N -> (N_of_ascii c <? 128)%N = false.
Proof. unfold byte_in. intros [H1%N.leb_le _]%andb_prop ?. apply N.ltb_ge. lia. Qed.
Lemma cont_high c : is_cont c = true -> (N_of_ascii c <? 128)%N = false.
Proof. intros H. by eapply byte_in_high. Qed.
Lemma byte_eq n c : byte_in n n c = true -> c = ch n.
Proof.
  unfold byte_in. intros [H1%N.leb_le H2%N.leb_le]%andb_prop. unfold ch.
  replace n with (N_of_ascii c) by lia. by rewrite ascii_N_embedding.
Qed.
Lemma rune2_cont a b : rune2 a b = true -> is_cont b = true.
Proof. by intros [_ ?]%andb_prop. Qed.
Ltac ors H := repeat (apply orb_prop in H; destruct H as [H|H]); repeat (let H2 := fresh in apply andb_prop in H as [H H2]).
Lemma in_cont lo hi c : byte_in lo hi c = true -> (128 <= lo)%N -> (hi <= 191)%N -> is_cont c = true.
Proof. unfold is_cont, byte_in. rewrite !andb_true_iff, !N.leb_le. lia. Qed.
Lemma rune3_cont a b c : rune3 a b c = true -> is_cont b = true /\ is_cont c = true.
Proof.
  intros [H Hc]%andb_prop. split; [|done]. ors H;
    match goal with H : _ b = true |- _ => first [exact H | by eapply in_cont] end.
Qed.
Lemma rune4_cont a b c d : rune4 a b c d = true -> is_cont b = true /\ is_cont c = true /\ is_cont d = true.
Proof.
  intros [[H Hc]%andb_prop Hd]%andb_prop. split; [|done]. ors H;
    match goal with H : _ b = true |- _ => first [exact H | by eapply in_cont] end.
Qed.

Lemma dec_enc_body s z :
  utf8_ok s = true -> dec_body (enc_body s +:+ quote +:+ z) = Some (s, z).
Proof.
  remember (String.length s) as n eqn:Hn. assert (Hl : (String.length s <= n)%nat) by lia. clear Hn.
  revert s Hl. induction n as [|n IH]; intros s Hl Hu.
  { destruct s; [|simpl in Hl; lia]. done. }
  destruct s as [|a s1]; [done|]. cbn [enc_body utf8_ok] in *. simpl in Hl.
  destruct (N_of_ascii a <? 128)%N eqn:Ha.
  { rewrite app_assoc_s. apply dec_ascii; [done|]. apply IH; [lia|done]. }
  destruct s1 as [|b s2]; [done|]. simpl in Hl.
  destruct (rune2 a b) eqn:R2.
  { apply dec_high; [done|]. apply dec_high; [by apply cont_high, (rune2_cont a)|]. apply IH; [lia|done]. }
  destruct s2 as [|c s3]; [done|]. simpl in Hl.
  destruct (rune3 a b c) eqn:R3.
  { assert (Hr : dec_body (enc_body s3 +:+ quote +:+ z) = Some (s3, z)) by (apply IH; [lia|done]).
    destruct (is_ls a b c) eqn:L.
    - unfold is_ls in L. apply andb_prop in L as [[La%byte_eq Lb%byte_eq]%andb_prop Lc]. subst a b.
      rewrite app_assoc_s. unfold enc_ls.
      assert (c = ch 168 \/ c = ch 169) as [->| ->].
      { unfold byte_in in Lc. apply andb_prop in Lc as [H1%N.leb_le H2%N.leb_le]. unfold ch.
        rewrite <-(ascii_N_embedding c).
        assert (N_of_ascii c = 168 \/ N_of_ascii c = 169)%N as [-> | ->] by lia; auto. }
      + change (enc_ls (ch 168)) with (String (ch 92) "u2028"). simpl. simpl in Hr. by rewrite Hr.
      + change (enc_ls (ch 169)) with (String (ch 92) "u2029"). simpl. simpl in Hr. by rewrite Hr.
    - apply rune3_cont in R3 as [Hb Hc].
      change (dec_body (String a (String b (String c (enc_body s3 +:+ quote +:+ z)))) = Some (String a (String b (String c s3)), z)).
      apply dec_high; [done|]. apply dec_high; [by apply cont_high|]. apply dec_high; [by apply cont_high|]. exact Hr. }
  destruct s3 as [|d s4]; [done|]. simpl in Hl.
  destruct (rune4 a b c d) eqn:R4; [|done].
  apply rune4_cont in R4 as (Hb & Hc & Hd).
  apply dec_high; [done|]. apply dec_high; [by apply cont_high|]. apply dec_high; [by apply cont_high|].
  apply dec_high; [by apply cont_high|]. apply IH; [lia|done].
Qed.

Lemma enc_str_unique s t x y :
  utf8_ok s = true -> utf8_ok t = true -> enc_str s +:+ x = enc_str t +:+ y -> s = t /\ x = y.
Proof.
  intros Hs Ht E. unfold enc_str in E. rewrite !app_assoc_s in E.
  unfold quote at 1 3 in E. simpl in E. injection E as E.
  assert (E' : dec_body (enc_body s +:+ quote +:+ x) = dec_body (enc_body t +:+ quote +:+ y)) by (by f_equal).
  rewrite !dec_enc_body in E' by done. by injection E' as -> ->.
Qed.

(** *** Numbers *)
Definition nonum (x : string) : Prop := match x with EmptyString => True | String c _ => num_char c = false end.
Lemma num_unique s t x y :
  all_num s = true -> all_num t = true -> nonum x -> nonum y -> s +:+ x = t +:+ y -> s = t /\ x = y.
Proof.
  revert t. induction s as [|a s IH]; intros [|b t]; simpl; intros Hs Ht Hx Hy E.
  - done.
  - apply andb_prop in Ht as [Hb _]. destruct x; [done|]. injection E as -> _. simpl in Hx. congruence.
  - apply andb_prop in Hs as [Hb _]. destruct y; [done|]. injection E as <- _. simpl in Hy. congruence.
  - injection E as -> E. apply andb_prop in Hs as [_ Hs], Ht as [_ Ht].
    destruct (IH t Hs Ht Hx Hy E) as [-> ->]. done.
Qed.
Lemma pretty_go_num x s : all_num s = true -> all_num (pretty_N_go x s) = true.
Proof.
  revert s. induction (N.lt_wf_0 x) as [x _ IH]; intros s Hs.
  destruct (decide (0 < x)%N) as [H|H].
  - rewrite pretty_N_go_step by done. apply IH.
    + by apply N.div_lt.
    + simpl. rewrite Hs, andb_true_r. assert (x `mod` 10 < 10)%N by (apply N.mod_lt; lia).
      generalize dependent (x `mod` 10)%N. intros m Hm.
      assert (m = 0 \/ m = 1 \/ m = 2 \/ m = 3 \/ m = 4 \/ m = 5 \/ m = 6 \/ m = 7 \/ m = 8 \/ m = 9)%N as HH by lia.
      repeat destruct HH as [->|HH]; try done. by subst.
  - replace x with 0%N by lia. done.
Qed.
Lemma pretty_go_ne x s : s <> EmptyString -> pretty_N_go x s <> EmptyString.
Proof.
  revert s. induction (N.lt_wf_0 x) as [x _ IH]; intros s Hs.
  destruct (decide (0 < x)%N) as [H|H].
  - rewrite pretty_N_go_step by done. apply IH; [by apply N.div_lt|done].
  - replace x with 0%N by lia. done.
Qed.
Lemma pretty_N_num (n : N) : all_num (pretty n) = true /\ pretty n <> EmptyString.
Proof.
  unfold pretty, pretty_N. case_decide; [done|]. split; [by apply pretty_go_num|].
  rewrite pretty_N_go_step by lia. by apply pretty_go_ne.
Qed.
Lemma enc_int_num n : all_num (enc_int n) = true /\ enc_int n <> EmptyString.
Proof.
  unfold enc_int. destruct n as [|p|p]; simpl; try done.
  - apply (pretty_N_num (N.pos p)).
  - split; [|done]. apply (pretty_N_num (N.pos p)).
Qed.
