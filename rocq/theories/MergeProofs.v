(** Merges. *)
From Verif Require Import JsonModel ObjModel ValueModel JsonSpec ValueSpec JsonProofs.

(** What two maps hold together under one key. *)
Definition both (x y : option json) : option json :=
  match x, y with
  | None, _ => y
  | _, None => x
  | Some x, Some y => merge x y
  end.

Lemma left_some f mb ma : forall acc r, ksorted ma -> ksorted acc -> merge_left f mb ma acc = Some r ->
  ksorted r /\ forall k, mget r k = match mget ma k with None => mget acc k | Some x => match mget mb k with None => Some x | Some y => f x y end end.
Proof.
  induction ma as [|[j x] ma IH]; intros acc r Hm Ha E; [by injection E as <-|]. apply ksorted_cons in Hm as [Hm Hj]. cbn [merge_left] in E.
  assert (G : exists z, match mget mb j with None => Some x | Some y => f x y end = Some z /\ merge_left f mb ma (mset acc j z) = Some r).
  { destruct (mget mb j) as [y|]; [|by exists x]. apply bind_Some in E as (z & Ez & E). by exists z. }
  destruct G as (z & Ez & E'). apply IH in E' as [S1 S2]; [|done|by apply ksorted_set]. split; [done|]. intros k. rewrite S2. cbn [mget].
  destruct (decide (k = j)) as [->|N]; [|rewrite mget_set_ne by congruence; done]. rewrite (mget_lt _ _ Hj), mget_set_eq. done.
Qed.
Lemma left_ok f mb ma : forall acc r, merge_left f mb ma acc = Some r -> forall k x y, (k, x) ∈ ma -> mget mb k = Some y -> f x y <> None.
Proof.
  induction ma as [|[j x] ma IH]; intros acc r E k x' y' Hin Ey N; [by apply elem_of_nil in Hin|]. cbn [merge_left] in E.
  apply elem_of_cons in Hin as [[= -> ->]|Hin].
  - rewrite Ey, N in E. done.
  - destruct (mget mb j) as [y|]; [apply bind_Some in E as (z & Ez & E)|]; by eapply IH.
Qed.
Lemma left_none f mb ma : forall acc, merge_left f mb ma acc = None -> exists k x y, (k, x) ∈ ma /\ mget mb k = Some y /\ f x y = None.
Proof.
  induction ma as [|[j x] ma IH]; intros acc E; [done|]. cbn [merge_left] in E. destruct (mget mb j) as [y|] eqn:Ey.
  - destruct (f x y) as [z|] eqn:Ez; [|exists j, x, y; split; [by apply elem_of_cons; left|done]].
    apply IH in E as (k & x' & y' & H1 & H2). exists k, x', y'. split; [by apply elem_of_cons; right|done].
  - apply IH in E as (k & x' & y' & H1 & H2). exists k, x', y'. split; [by apply elem_of_cons; right|done].
Qed.
Lemma right_get ma mb : forall acc, ksorted mb -> ksorted acc ->
  ksorted (merge_right ma mb acc) /\ forall k, mget (merge_right ma mb acc) k =
    match mget mb k with None => mget acc k | Some y => match mget ma k with Some _ => mget acc k | None => Some y end end.
Proof.
  induction mb as [|[j y] mb IH]; intros acc Hm Ha; [done|]. apply ksorted_cons in Hm as [Hm Hj]. cbn [merge_right].
  destruct (IH (match mget ma j with Some _ => acc | None => mset acc j y end)) as [S1 S2]; [done|destruct (mget ma j); [done|by apply ksorted_set]|].
  split; [done|]. intros k. rewrite S2. cbn [mget]. destruct (decide (k = j)) as [->|N].
  - rewrite (mget_lt _ _ Hj). destruct (mget ma j); [done|]. apply mget_set_eq.
  - assert (E : mget (match mget ma j with Some _ => acc | None => mset acc j y end) k = mget acc k) by (destruct (mget ma j); [done|]; apply mget_set_ne; congruence).
    by rewrite E.
Qed.
Lemma merge_maps a b : ksorted a -> ksorted b ->
  (exists r, merge (JMap a) (JMap b) = Some (JMap r) /\ ksorted r /\ (forall k, mget r k = both (mget a k) (mget b k))
     /\ forall k x y, mget a k = Some x -> mget b k = Some y -> merge x y <> None)
  \/ (merge (JMap a) (JMap b) = None /\ exists k x y, mget a k = Some x /\ mget b k = Some y /\ merge x y = None).
Proof.
  intros Ha Hb. cbn [merge]. destruct (merge_left merge b a a) as [r|] eqn:EL; cbn [mbind option_bind].
  - left. exists (merge_right a b r). pose proof EL as E. apply left_some in E as [S1 S2]; [|done..]. destruct (right_get a b r Hb S1) as [R1 R2].
    assert (G : forall k, mget (merge_right a b r) k = both (mget a k) (mget b k)).
    { intros k. rewrite R2, S2. unfold both. destruct (mget a k) as [x|], (mget b k) as [y|]; done. }
    split; [done|]. split; [done|]. split; [done|]. intros k x y Ex Ey. eapply (left_ok _ _ _ _ _ EL); [by apply mget_in|done].
  - right. split; [done|]. apply left_none in EL as (k & x & y & H1 & H2 & H3). exists k, x, y. split; [by apply in_mget|done].
Qed.
Lemma merge_wf a : forall b r, jwf a -> jwf b -> merge a b = Some r -> jwf r.
Proof.
  induction a as [|a|a|a|a|la IH|ma IH] using json_rect'; intros b r Ha Hb E; [by injection E as <-|..]; destruct b as [|b|b|b|b|lb|mb]; try done; try (by injection E as <-).
  - injection E as <-. inversion Ha; inversion Hb; subst. constructor. by apply Forall_app.
  - destruct (merge_maps ma mb) as [(r' & E' & S1 & S2 & _)|[E' _]]; [by apply owf_sorted|by apply owf_sorted| |by rewrite E in E'].
    rewrite E in E'. injection E' as ->. apply owf_iff. split; [done|]. intros k v. rewrite S2. unfold both.
    destruct (mget ma k) as [x|] eqn:Ex, (mget mb k) as [y|] eqn:Ey; try done; intros Ev.
    + rewrite Forall_forall in IH. eapply (IH (k, x)); [by apply mget_in|exact (owf_get _ _ _ Ha Ex)|exact (owf_get _ _ _ Hb Ey)|done].
    + injection Ev as <-. exact (owf_get _ _ _ Ha Ex).
    + injection Ev as <-. exact (owf_get _ _ _ Hb Ey).
Qed.
Lemma compatible_ok a : forall b, jwf a -> jwf b -> compatible a b -> exists r, merge a b = Some r.
Proof.
  induction a as [|a|a|a|a|la IH|ma IH] using json_rect'; intros b Ha Hb C; inversion C; subst; try done; try (by eexists); try (destruct b; try done; by eexists).
  destruct (merge_maps ma m') as [(r' & E' & _)|(_ & k & x & y & Ex & Ey & N)]; [by apply owf_sorted|by apply owf_sorted|by eexists|].
  rewrite Forall_forall in IH. destruct (IH (k, x)) with y as [r Er]; [by apply mget_in|exact (owf_get _ _ _ Ha Ex)|exact (owf_get _ _ _ Hb Ey)|by eapply H0|]. simpl in Er. congruence.
Qed.
Lemma merge_assoc a : forall b c, jwf a -> jwf b -> jwf c -> compatible a b ->
  (ab ← merge a b; merge ab c) = (bc ← merge b c; merge a bc).
Proof.
  induction a as [|a|a|a|a|la IH|ma IH] using json_rect'; intros b c Ha Hb Hc C; inversion C; subst; try done.
  all: try (cbn; destruct (merge b c); done).
  all: try (destruct b, c; done).
  - destruct c; cbn; try done. by rewrite app_assoc.
  - rename m' into mb. destruct (compatible_ok _ _ Ha Hb C) as [ab Eab].
    destruct (merge_maps ma mb) as [(r & E & Sr & Gr & Or)|(E & _)]; [by apply owf_sorted|by apply owf_sorted| |congruence].
    rewrite E. cbn [mbind option_bind]. destruct c as [|c|c|c|c|lc|mc]; try done.
    rewrite Forall_forall in IH.
    (* one key *)
    assert (K : forall k x y z, mget ma k = Some x -> mget mb k = Some y -> mget mc k = Some z -> (xy ← merge x y; merge xy z) = (yz ← merge y z; merge x yz)).
    { intros k x y z Ex Ey Ez. apply (IH (k, x)); [by apply mget_in|exact (owf_get _ _ _ Ha Ex)|exact (owf_get _ _ _ Hb Ey)|exact (owf_get _ _ _ Hc Ez)|by eapply H0]. }
    destruct (merge_maps r mc) as [(s & Es & Ss & Gs & Os)|(Es & k & w & z & Ew & Ez & N)]; [done|by apply owf_sorted|..]; rewrite Es.
    + destruct (merge_maps mb mc) as [(bc & Ebc & Sbc & Gbc & Obc)|(Ebc & k & y & z & Ey & Ez & N)]; [by apply owf_sorted|by apply owf_sorted|..]; rewrite Ebc; cbn [mbind option_bind].
      * destruct (merge_maps ma bc) as [(t & Et & St & Gt & Ot)|(Et & k & x & yz & Ex & Eyz & N)]; [by apply owf_sorted|done|..]; rewrite Et.
        -- do 2 f_equal. apply mget_ext; [done|done|]. intros k. rewrite Gs, Gt, Gr, Gbc.
           destruct (mget ma k) as [x|] eqn:Ex, (mget mb k) as [y|] eqn:Ey, (mget mc k) as [z|] eqn:Ez; try done; cbn [both]; try (by destruct (merge _ _)).
           ++ specialize (K k x y z Ex Ey Ez). destruct (merge x y) as [xy|] eqn:Exy; [|by edestruct Or]. cbn [mbind option_bind] in K.
              destruct (merge y z) as [yz|] eqn:Eyz; [|by edestruct Obc]. done.
           ++ by destruct (merge x y).
        -- exfalso. rewrite Gbc in Eyz. destruct (mget mb k) as [y|] eqn:Ey, (mget mc k) as [z|] eqn:Ez; cbn [both] in Eyz; try done.
           ++ specialize (K k x y z Ex Ey Ez). rewrite Eyz in K. cbn [mbind option_bind] in K. rewrite N in K. destruct (merge x y) as [xy|] eqn:Exy; [|by edestruct Or]. cbn in K.
              eapply (Os k xy z); [by rewrite Gr, Ex, Ey|done|done].
           ++ injection Eyz as ->. eapply (Or k x yz); done.
           ++ injection Eyz as ->. eapply (Os k x yz); [by rewrite Gr, Ex, Ey|done|done].
      * exfalso. destruct (mget ma k) as [x|] eqn:Ex.
        -- specialize (K k x y z Ex Ey Ez). rewrite N in K. cbn in K. destruct (merge x y) as [xy|] eqn:Exy; [|by edestruct Or]. cbn in K.
           eapply (Os k xy z); [by rewrite Gr, Ex, Ey|done|done].
        -- eapply (Os k y z); [by rewrite Gr, Ex, Ey|done|done].
    + symmetry. destruct (merge_maps mb mc) as [(bc & Ebc & Sbc & Gbc & Obc)|(Ebc & _)]; [by apply owf_sorted|by apply owf_sorted| |by rewrite Ebc]. rewrite Ebc; cbn [mbind option_bind].
      destruct (merge_maps ma bc) as [(t & Et & St & Gt & Ot)|(Et & _)]; [by apply owf_sorted|done| |done]. exfalso.
      rewrite Gr in Ew. destruct (mget ma k) as [x|] eqn:Ex, (mget mb k) as [y|] eqn:Ey; cbn [both] in Ew; try done.
      * specialize (K k x y z Ex Ey Ez). rewrite Ew in K. cbn [mbind option_bind] in K. rewrite N in K. destruct (merge y z) as [yz|] eqn:Eyz; [|by edestruct Obc]. cbn in K.
        eapply (Ot k x yz); [done|by rewrite Gbc, Ey, Ez|done].
      * injection Ew as ->. eapply (Ot k w z); [done|by rewrite Gbc, Ey, Ez|done].
      * injection Ew as ->. eapply (Obc k w z); done.
Qed.
