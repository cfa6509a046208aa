(** Proofs about runs of calls that overlap. *)
From Verif Require Import JsonModel JsonSpec JsonProofs ObjModel ObjProofs ValueModel ValueSpec ValueProofs GroupModel GroupSpec GroupProofs ZSetSpec PipelineSpec ViewModel ViewSpec
  ReconcileProofs ViewProofs ViewProofs2 WriterSpec WriterProofs StorageModel StorageSpec StorageProofs OverlapModel OverlapSpec OverlapProofs.

Section serial.
Variable hash : string -> string.
Variable lister : store -> list jobj.
Hypothesis L : lists_all lister.
Notation begin := (begin hash).
Notation alone := (alone lister).
Notation vok := (vok hash).
Notation stays := (stays hash).

Lemma sact_run_snoc l a : forall c, sact_run hash lister c (l ++ [a])
  = let '(c1, es, rs) := sact_run hash lister c l in let '(c2, es', r) := sact_step hash lister c1 a in (c2, es ++ es', rs ++ [r]).
Proof.
  induction l as [|b l IH]; intros c; cbn [app sact_run].
  - destruct (sact_step hash lister c a) as [[c' es] r]. by rewrite app_nil_r.
  - destruct (sact_step hash lister c b) as [[c1 es] r]. rewrite IH. destruct (sact_run hash lister c1 l) as [[c2 es'] rs]. destruct (sact_step hash lister c2 a) as [[c3 es''] r'].
    by rewrite app_assoc.
Qed.
Lemma names_self a : collective a = false -> reading a = false -> names (subject a) a = true.
Proof. intros C R. unfold names. rewrite C, bool_decide_true by done. destruct a as [x []|[]]; done. Qed.
Lemma subject_plain a : sact_ok a -> collective a = false -> reading a = false -> plain (subject a).2.
Proof.
  intros A C R. destruct a as [x [ns name|ns labels fields|ns m v o|ns name upd vn v force o|ns name v o|]|[m|m|m p|m| |sub m|sub m s]]; try done; cbn [subject snd]; unfold source_id; cbn [snd].
  - by destruct A as (_ & _ & _ & A).
  - by destruct A as (_ & _ & A & _).
  - by destruct A as (_ & _ & A).
  - by destruct A as (_ & _ & A).
  - by destruct A as ((_ & _ & A) & _).
  - by destruct A.
  - by destruct A as ((_ & _ & A) & _).
  - by destruct A.
Qed.
Lemma keys_differ (o o' : gvk * (string * string)) : plain o.2 -> plain o'.2 -> o <> o' -> (o.1, at_key o.2) <> (o'.1, at_key o'.2).
Proof. intros P1 P2 N [= E1 E2]. apply N. destruct o as [x i], o' as [y j]. cbn in *. subst y. f_equal. unfold at_key in E2. by apply skey_inj in E2. Qed.
Lemma stays_change x k p c : stays x k p -> vok c -> let '(c', p') := access lister c p in c' = c \/ exists v, found_ok hash x k v /\ c' = alter_at c x k v.
Proof.
  intros S V. destruct S as [r|f|m f Hm|f]; cbn [access]; try (by left); right.
  - exists (Some m). split; [done|]. rewrite put_alter. assert (E := so_key _ _ _ _ Hm). by rewrite E.
  - by exists None.
Qed.
Lemma reading_same a c : reading a = true -> (access lister c (begin a)).1 = c.
Proof.
  intros R. destruct a as [x [ns name|ns labels fields| | | |]|]; try done. cbn [OverlapModel.begin c_serve]. unfold c_st_get. destruct (st_key true ns name); [|done]. unfold c_get. by destruct (is_view_kind x).
Qed.

(** What is left of a call, when alone with the objects as they are now, does what the
    whole call would do. *)
Definition kept (c : caches) (a : sact) (p : call) : Prop :=
  p = begin a \/ (reading a = false /\ posting a = false /\ stays (subject a).1 (at_key (subject a).2) p /\ alone p c = alone (begin a) c).
Record inv (s : over) : Prop := {
  i_vok : vok (o_cache s);
  i_open : forall i a p, o_open s !! i = Some (a, p) -> sact_ok a /\ collective a = false /\ kept (o_cache s) a p /\ once 3 p /\ forall r, p <> Return r;
  i_apart : forall i j a b p q, o_open s !! i = Some (a, p) -> o_open s !! j = Some (b, q) -> i <> j -> may_overlap a b;
  i_done : (let '(c, _, rs) := sact_run hash lister ∅ (calls_over s) in (c, rs)) = (o_cache s, results_over s) }.
Lemma may_overlap_sym a b : may_overlap a b -> may_overlap b a.
Proof. unfold may_overlap. naive_solver. Qed.
Lemma kept_alone c a p : kept c a p -> alone p c = alone (begin a) c.
Proof. by intros [->|(_ & _ & _ & ?)]. Qed.

Lemma done_snoc s i a r c c' : (let '(c, _, rs) := sact_run hash lister ∅ (calls_over s) in (c, rs)) = (c, results_over s) -> alone (begin a) c = (c', r) ->
  let s' := Over c' (delete i (o_open s)) (o_done s ++ [(i, a, r)]) in
  (let '(c, _, rs) := sact_run hash lister ∅ (calls_over s') in (c, rs)) = (o_cache s', results_over s').
Proof.
  intros H E. cbn [o_cache]. unfold calls_over, results_over in *. cbn [o_done]. rewrite !map_app. cbn [map fst snd]. rewrite sact_run_snoc.
  destruct (sact_run hash lister ∅ (map (fun d => d.1.2) (o_done s))) as [[c1 es] rs]. injection H as -> ->.
  rewrite alone_begin in E. destruct (sact_step hash lister c a) as [[c2 es'] r']. by injection E as -> ->.
Qed.
(** A step of one call keeps the others. *)
Lemma kept_others c c' a b p q : vok c -> sact_ok a -> sact_ok b -> collective a = false -> collective b = false -> may_overlap a b ->
  (c' = c \/ (reading a = false /\ exists v, found_ok hash (subject a).1 (at_key (subject a).2) v /\ c' = alter_at c (subject a).1 (at_key (subject a).2) v)) ->
  (posting a = false \/ p = begin a) -> kept c b q -> kept c' b q.
Proof.
  intros V A B Ca Cb M [->|(Ra & v & Fv & ->)] Pa [->|(Rb & Pb & Sb & Eb)]; try (by left); [by right|]. right. split_and!; try done.
  assert (N : subject a <> subject b). { destruct M as [M|[M|[[M1 M2]|M]]]; try congruence. }
  assert (K := keys_differ _ _ (subject_plain a A Ca Ra) (subject_plain b B Cb Rb) N).
  rewrite (frame hash lister _ _ _ Sb) by done. rewrite (frame hash lister (subject b).1 (at_key (subject b).2)); [|by apply stays_begin; [|apply names_self]|done|done]. by rewrite Eb.
Qed.
Lemma inv_step s t s' : inv s -> turn_ok t -> begins_apart s t -> turn_step hash lister s t = Some s' -> inv s'.
Proof.
  intros I T Ap E. destruct t as [i a|i]; cbn [turn_step] in E.
  - destruct (o_open s !! i) as [|] eqn:Ei; [done|]. injection E as <-. destruct Ap as [Ca Ov]. cbn in T. assert (Ob := once_begin hash a Ca).
    assert (O3 : once 3 (begin a)) by (eapply once_le; [exact Ob|destruct (_ || _); lia]).
    destruct (begin a) as [r| | | |] eqn:Eb; cbn [settle]; [destruct I as [I1 I2 I3 I4]; rewrite delete_notin by done; split; cbn [o_cache o_open o_done]; [done|done|done|]|..].
    { assert (D := done_snoc s i a r (o_cache s) (o_cache s) I4). cbn zeta in D. rewrite delete_notin in D by done. apply D. by rewrite Eb. }
    all: destruct I as [I1 I2 I3 I4]; split; cbn [o_cache o_open o_done];
      [done
      |intros j b q; rewrite lookup_insert_Some; intros [[<- [= <- <-]]|[N Ej]]; [|by eapply I2]; split_and!; [done|done|by left|done|done]
      |intros j j' b b' q q'; rewrite !lookup_insert_Some; intros [[<- [= <- <-]]|[N Ej]] [[<- [= <- <-]]|[N' Ej']] Nj; [done|by eapply Ov|by eapply may_overlap_sym, Ov|by eapply I3]
      |done].
  - destruct (o_open s !! i) as [[a p]|] eqn:Ei; [|done]. destruct (access lister (o_cache s) p) as [c' p'] eqn:Ea. injection E as <-.
    destruct I as [I1 I2 I3 I4]. destruct (I2 _ _ _ Ei) as (A & Ca & Kp & Op & Np).
    assert (X1 := alone_access lister p (o_cache s)). rewrite Ea in X1. rewrite (kept_alone _ _ _ Kp) in X1.
    assert (X2 := once_access lister 3 p (o_cache s) Op). rewrite Ea in X2. destruct X2 as [Op' Cp].
    assert (Ch : c' = o_cache s \/ (reading a = false /\ exists v, found_ok hash (subject a).1 (at_key (subject a).2) v /\ c' = alter_at (o_cache s) (subject a).1 (at_key (subject a).2) v)).
    { destruct (reading a) eqn:Ra.
      - left. destruct Kp as [->|(? & _)]; [|congruence]. assert (R := reading_same a (o_cache s) Ra). by rewrite Ea in R.
      - assert (Sp : stays (subject a).1 (at_key (subject a).2) p). { destruct Kp as [->|(_ & _ & ? & _)]; [|done]. apply stays_begin; [done|by apply names_self]. }
        assert (Sc := stays_change _ _ _ _ Sp I1). rewrite Ea in Sc. destruct Sc as [?|?]; auto. }
    assert (V' : vok c'). { destruct Ch as [->|(_ & v & Fv & ->)]; [done|]. by apply vok_alter. }
    assert (Pp : posting a = false \/ p = begin a). { destruct Kp as [?|(_ & ? & _)]; auto. }
    assert (Oth : forall j b q, j <> i -> o_open s !! j = Some (b, q) -> sact_ok b /\ collective b = false /\ kept c' b q /\ once 3 q /\ forall r, q <> Return r).
    { intros j b q Nj Ej. destruct (I2 _ _ _ Ej) as (B & Cb & Kq & Oq & Nq). split_and!; [done|done| |done|done].
      eapply kept_others; [exact I1|exact A|exact B|done|done| |exact Ch|exact Pp|done]. by eapply (I3 i j). }
    assert (Hr : (exists r, p' = Return r) \/ ~ exists r, p' = Return r) by (destruct p'; [left; eauto|right; by intros [? ?]..]). destruct Hr as [[r ->]|Nr].
    + cbn [settle OverlapProofs.alone] in *. split; cbn [o_cache o_open].
      * done.
      * intros j b q. rewrite lookup_delete_Some. intros [Nj Ej]. by apply Oth with j.
      * intros j j' b b' q q'. rewrite !lookup_delete_Some. intros [Nj Ej] [Nj' Ej']. by apply (I3 _ _ _ _ _ _ Ej Ej').
      * eapply done_snoc; [exact I4|]. by rewrite X1.
    + assert (E : c' = o_cache s) by (destruct Cp as [?|[r ?]]; [done|exfalso; eauto]). subst c'.
      assert (Es : settle i a (o_cache s) p' s = Over (o_cache s) (<[i := (a, p')]> (o_open s)) (o_done s)). { destruct p'; try done. exfalso; eauto. }
      rewrite Es. split; cbn [o_cache o_open o_done]; [done| | |done].
      * intros j b q. rewrite lookup_insert_Some. intros [[<- [= <- <-]]|[Nj Ej]]; [|by apply I2 with j].
        split_and!; [done|done| |by eapply once_le; [exact Op'|lia]|intros r ->; eauto]. right.
        assert (Nb : reading a || posting a = false).
        { destruct (reading a || posting a) eqn:Er; [|done]. exfalso. assert (Ob := once_begin hash a Ca). rewrite Er in Ob. assert (Ep : p = begin a). { destruct Kp as [?|(Q1 & Q2 & _)]; [done|]. by rewrite Q1, Q2 in Er. }
          subst p. assert (X := once_access lister 1 _ (o_cache s) Ob). rewrite Ea in X. destruct X as [X _]. inversion X; subst; eauto. }
        apply orb_false_iff in Nb as [Na Nb]. split_and!; [done|done| |done].
        assert (Sp : stays (subject a).1 (at_key (subject a).2) p). { destruct Kp as [->|(_ & _ & ? & _)]; [|done]. apply stays_begin; [done|by apply names_self]. }
        assert (Sc := stays_access hash lister _ _ _ (o_cache s) Sp I1). by rewrite Ea in Sc.
      * intros j j' b b' q q'. rewrite !lookup_insert_Some. intros [[<- [= <- <-]]|[N Ej]] [[<- [= <- <-]]|[N' Ej']] Nj; [done|by eapply (I3 i j')|by eapply (I3 j i)|by eapply I3].
Qed.
Lemma inv0 : inv over0.
Proof. split; cbn; [apply vok_empty|intros i a p; by rewrite lookup_empty|intros i j a b p q; by rewrite lookup_empty|done]. Qed.
Lemma turns_none l : foldl (fun s t => s ← s; turn_step hash lister s t) None l = None.
Proof. by induction l. Qed.
Lemma turns_cons s t l : turns hash lister s (t :: l) = match turn_step hash lister s t with Some s' => turns hash lister s' l | None => None end.
Proof. unfold turns. cbn [foldl]. cbn. destruct (turn_step hash lister s t); [done|apply turns_none]. Qed.
Lemma inv_run l : forall s s', inv s -> Forall turn_ok l -> apart hash lister s l -> turns hash lister s l = Some s' -> inv s'.
Proof.
  induction l as [|t l IH]; intros s s' I F A E; [by injection E as <-|]. rewrite turns_cons in E. apply Forall_cons in F as [F1 F2]. destruct A as [A1 A2].
  destruct (turn_step hash lister s t) as [s1|] eqn:E1; [|done]. eapply IH; [|done..]. by eapply inv_step.
Qed.

(** ** One object *)
Section object.
Variable o : gvk * (string * string).
Hypothesis Po : plain o.2.
Notation away := (fun y j => (y, j) <> (o.1, at_key o.2)).

Lemma within_delete P m f : (forall r, within hash P (f r)) -> P (get_gvk m) (store_key m) -> within hash P (c_delete m f).
Proof.
  intros F HP. unfold c_delete. destruct (is_view_kind _); [|done]. constructor. intros [e|] Fe; [|done]. cbn in Fe. assert (Ek := so_key _ _ _ _ Fe). rewrite Ek. by constructor.
Qed.
Lemma within_delete_items P l f : (forall r, within hash P (f r)) -> Forall (fun m => P (get_gvk m) (store_key m)) l -> within hash P (c_delete_items l f).
Proof.
  intros F. induction l as [|m l IH]; intros H; [apply F|]. apply Forall_cons in H as [H1 H2]. cbn [c_delete_items]. apply within_delete; [|done]. intros []; [by apply IH|apply F..].
Qed.
Lemma within_delete_each P v l p : within hash P p -> Forall (fun m => P (get_gvk m) (store_key m)) l -> within hash P (c_delete_each v l p).
Proof.
  intros F. induction l as [|m l IH]; intros H; [done|]. apply Forall_cons in H as [H1 H2]. cbn [c_delete_each]. destruct (v m); [|by apply IH]. apply within_delete; [|done]. intros. by apply IH.
Qed.
Lemma within_list (P : gvk -> string -> Prop) x s f : (forall l, Forall (fun m => get_gvk m = object_gvk x /\ plain (obj_id m) /\ selects s m = true) l -> within hash P (f l)) -> within hash P (c_list x s f).
Proof.
  intros F. unfold c_list. constructor. intros l Hl. apply F. apply Forall_forall. intros m Hm. apply elem_of_list_In, in_map_iff in Hm as (m' & Em & Hm).
  apply filter_In in Hm as [Hm Hs]. rewrite Forall_forall in Hl. apply elem_of_list_In in Hm. apply Hl in Hm. assert (Ec := so_copy _ _ _ _ Hm). rewrite Ec in Em. subst m'. by destruct Hm.
Qed.
Lemma within_reading P a : reading a = true -> within hash P (begin a).
Proof.
  intros R. destruct a as [x [ns name|ns labels fields| | | |]|]; try done; cbn [OverlapModel.begin c_serve].
  - unfold c_st_get. destruct (st_key true ns name); [|constructor]. unfold c_get. destruct (is_view_kind x); [|constructor]. constructor. intros. constructor.
  - apply within_list. intros. constructor.
Qed.
Lemma selected_away s m x : get_gvk m = x -> plain (obj_id m) -> selects s m = true -> ~ (x = o.1 /\ (sel_ns s = EmptyString \/ sel_ns s = o.2.1)) -> (get_gvk m, store_key m) <> (o.1, at_key o.2).
Proof.
  intros Eg Hp Hs N [= E1 E2]. apply N. split; [congruence|]. rewrite store_key_skey in E2. unfold at_key in E2. apply skey_inj in E2; [|done..].
  apply selects_ns in Hs as [Hs|Hs]; [by left|right]. rewrite <- Hs. exact (f_equal fst E2).
Qed.
Lemma within_collective (P : gvk -> string -> Prop) a : sact_ok a -> collective a = true ->
  (forall x s m, match a with Api y (SDeleteAll ns _ lb fd _) => x = y /\ s = Selection (default EmptyString ns) lb fd | Write (VDeleteAll m' s') => x = get_gvk m' /\ s = s' | _ => False end ->
    get_gvk m = x -> plain (obj_id m) -> selects s m = true -> P (get_gvk m) (store_key m)) -> within hash P (begin a).
Proof.
  intros A C H. destruct a as [x [| | | | |ns v labels fields opts]|[| | | |m s| |]]; try done; cbn [OverlapModel.begin c_serve c_write].
  - destruct A as (O & G & _). apply within_list. rewrite list_kind by done. intros l Hl. apply within_delete_each; [constructor|]. eapply Forall_impl; [exact Hl|].
    intros m (M1 & M2 & M3). by eapply H.
  - destruct A as [K Ls]. unfold c_delete_all. rewrite own_current by done.
    assert (Ek : has_suffix "List" (gvk_kind (get_gvk m)) = false).
    { assert (F := f_equal gvk_kind (own_current m K)). cbn [view_gvk gvk_kind] in F. by rewrite <- F. }
    apply within_list. rewrite object_list_gvk by done. intros l Hl. apply within_delete_items; [constructor|]. eapply Forall_impl; [exact Hl|].
    intros m' (M1 & M2 & M3). by eapply H.
Qed.
Lemma within_any a : sact_ok a -> within hash (fun _ _ => True) (begin a).
Proof.
  intros A. destruct (collective a) eqn:C; [by apply within_collective|]. destruct (reading a) eqn:R; [by apply within_reading|].
  eapply stays_within; [|apply stays_begin; [done|by apply names_self]]. done.
Qed.
Lemma within_away a : sact_ok a -> names o a = false -> ~ may_include o a -> within hash away (begin a).
Proof.
  intros A N M. destruct (collective a) eqn:C.
  - apply within_collective; [done..|]. intros x s m Hx Eg Hp Hs. apply (selected_away s m x Eg Hp Hs). intros [E1 E2]. apply M.
    destruct a as [y [| | | | |ns v lb fd op]|[| | | |m' s'| |]]; try done; destruct Hx as [-> ->]; cbn in *; done.
  - destruct (reading a) eqn:R; [by apply within_reading|]. assert (Ns := names_self a C R). eapply stays_within; [|apply stays_begin; [done|exact Ns]].
    apply keys_differ; [by apply subject_plain|done|]. intros E. rewrite E in Ns. congruence.
Qed.

Record shadow (s r : over) : Prop := {
  h_vok : vok (o_cache s);
  h_at : cache_of (o_cache s) o.1 !! at_key o.2 = cache_of (o_cache r) o.1 !! at_key o.2;
  h_open : forall i, o_open r !! i = match o_open s !! i with Some (a, p) => if names o a then Some (a, p) else None | None => None end;
  h_done : o_done r = over_on o s;
  h_stays : forall i a p, o_open s !! i = Some (a, p) -> if names o a then stays o.1 (at_key o.2) p else within hash away p;
  h_inv : inv r }.
Lemma stays_alike p c c' : stays o.1 (at_key o.2) p -> cache_of c o.1 !! at_key o.2 = cache_of c' o.1 !! at_key o.2 ->
  (access lister c p).2 = (access lister c' p).2 /\ cache_of (access lister c p).1 o.1 !! at_key o.2 = cache_of (access lister c' p).1 o.1 !! at_key o.2.
Proof.
  intros S E. destruct S as [r|f|m f Hm|f]; cbn [access fst snd]; rewrite ?put_alter, ?drop_alter, ?lookup_alter_at; try done.
  - by rewrite E.
  - assert (Ek := so_key _ _ _ _ Hm). rewrite Ek, !decide_True by done. done.
  - rewrite !decide_True by done. done.
Qed.
Lemma over_on_app s c op d : over_on o (Over c op (o_done s ++ [d])) = over_on o s ++ (if names o d.1.2 then [d] else []).
Proof. unfold over_on. cbn [o_done]. rewrite List.filter_app. cbn [List.filter]. by destruct (names o d.1.2). Qed.
(** A call about the object goes on in both. *)
Lemma shadow_settle s r i a c c' p : vok c -> cache_of c o.1 !! at_key o.2 = cache_of c' o.1 !! at_key o.2 -> names o a = true -> stays o.1 (at_key o.2) p ->
  shadow s r -> inv (settle i a c' p r) -> shadow (settle i a c p s) (settle i a c' p r).
Proof.
  intros V E N S [H1 H2 H3 H4 H5 H6] I. assert (Hr : (exists x, p = Return x) \/ forall s c, settle i a c p s = Over c (<[i := (a, p)]> (o_open s)) (o_done s)) by (destruct p; [left; eauto|by right..]).
  destruct Hr as [[x ->]|Hr].
  - cbn [settle] in *. split; cbn [o_cache o_open o_done]; try done.
    + intros j. destruct (decide (i = j)) as [<-|Nj]; [by rewrite !lookup_delete|by rewrite !lookup_delete_ne].
    + rewrite over_on_app. cbn [fst snd]. by rewrite N, H4.
    + intros j b q. rewrite lookup_delete_Some. intros [_ Ej]. by eapply H5.
  - rewrite !Hr in *. split; cbn [o_cache o_open o_done]; try done.
    + intros j. destruct (decide (i = j)) as [<-|Nj]; [rewrite !lookup_insert; by rewrite N|by rewrite !lookup_insert_ne].
    + intros j b q. rewrite lookup_insert_Some. intros [[<- [= <- <-]]|[_ Ej]]; [by rewrite N|by eapply H5].
Qed.
(** Another call goes on. *)
Lemma shadow_other s r i a c p : vok c -> cache_of c o.1 !! at_key o.2 = cache_of (o_cache s) o.1 !! at_key o.2 -> names o a = false -> within hash away p ->
  o_open r !! i = None -> shadow s r -> shadow (settle i a c p s) r.
Proof.
  intros V E N S Ni [H1 H2 H3 H4 H5 H6]. assert (Hr : (exists x, p = Return x) \/ forall s c, settle i a c p s = Over c (<[i := (a, p)]> (o_open s)) (o_done s)) by (destruct p; [left; eauto|by right..]).
  destruct Hr as [[x ->]|Hr].
  - cbn [settle] in *. split; cbn [o_cache o_open o_done]; try done.
    + by rewrite E.
    + intros j. destruct (decide (i = j)) as [<-|Nj]; [by rewrite lookup_delete|by rewrite lookup_delete_ne].
    + rewrite over_on_app. cbn [fst snd]. by rewrite N, H4, app_nil_r.
    + intros j b q. rewrite lookup_delete_Some. intros [_ Ej]. by eapply H5.
  - rewrite !Hr in *. split; cbn [o_cache o_open o_done]; try done.
    + by rewrite E.
    + intros j. destruct (decide (i = j)) as [<-|Nj]; [rewrite lookup_insert; by rewrite N|by rewrite lookup_insert_ne].
    + intros j b q. rewrite lookup_insert_Some. intros [[<- [= <- <-]]|[_ Ej]]; [by rewrite N|by eapply H5].
Qed.
Lemma shadow_step s r t s' : shadow s r -> turn_ok t -> begins_apart_on o s t -> turn_step hash lister s t = Some s' -> exists r', shadow s' r'.
Proof.
  intros H T Ap E. assert (H0 := H). destruct H as [H1 H2 H3 H4 H5 H6]. destruct t as [i a|i].
  - cbn [turn_step] in E. destruct (o_open s !! i) as [|] eqn:Ei; [done|]. injection E as <-. destruct Ap as [Mi Ov]. assert (Er : o_open r !! i = None) by (by rewrite H3, Ei).
    destruct (names o a) eqn:N.
    + exists (settle i a (o_cache r) (begin a) r). apply shadow_settle; try done; [by apply stays_begin|].
      apply (inv_step r (Begin i a)); [done|done| |cbn [turn_step]; by rewrite Er]. split.
      * unfold names in N. destruct (collective a); [done|done].
      * intros j b q. rewrite H3. destruct (o_open s !! j) as [[b' q']|] eqn:Ej; [|done]. destruct (names o b') eqn:Nb; [|done]. intros [= -> ->]. by eapply Ov.
    + exists r. apply shadow_other; try done. by apply within_away.
  - cbn [turn_step] in E. destruct (o_open s !! i) as [[a p]|] eqn:Ei; [|done]. assert (Sp := H5 _ _ _ Ei). destruct (names o a) eqn:N.
    + assert (Er : o_open r !! i = Some (a, p)) by (by rewrite H3, Ei, N). destruct (stays_alike p (o_cache s) (o_cache r) Sp H2) as [A1 A2].
      assert (V : vok (access lister (o_cache s) p).1).
      { assert (W := within_access hash lister (fun _ _ => True) p (o_cache s) L (stays_within hash _ _ _ _ I Sp) H1). destruct (access lister (o_cache s) p). by destruct W as (_ & ? & _). }
      assert (Sa := stays_access hash lister _ _ p (o_cache s) Sp H1).
      assert (Ir := inv_step r (Go i) (let '(c, p) := access lister (o_cache r) p in settle i a c p r) H6 I I). cbn [turn_step] in Ir. rewrite Er in Ir.
      destruct (access lister (o_cache s) p) as [c p'], (access lister (o_cache r) p) as [c' p'']. cbn [fst snd] in *. subst p''. injection E as <-.
      exists (settle i a c' p' r). apply shadow_settle; try done. by apply Ir.
    + assert (W := within_access hash lister _ p (o_cache s) L Sp H1). destruct (access lister (o_cache s) p) as [c p']. destruct W as (W1 & W2 & W3). injection E as <-.
      exists r. apply shadow_other; try done; [apply W3; by intros F|]. by rewrite H3, Ei, N.
Qed.
Lemma shadow_run l : forall s r s', shadow s r -> Forall turn_ok l -> apart_on hash lister o s l -> turns hash lister s l = Some s' -> exists r', shadow s' r'.
Proof.
  induction l as [|t l IH]; intros s r s' H F A E; [injection E as <-; by exists r|]. rewrite turns_cons in E. apply Forall_cons in F as [F1 F2]. destruct A as [A1 A2].
  destruct (turn_step hash lister s t) as [s1|] eqn:E1; [|done]. destruct (shadow_step s r t s1 H F1 A1 E1) as [r1 H']. by eapply IH.
Qed.
Lemma shadow0 : shadow over0 over0.
Proof. split; cbn; [apply vok_empty|done|done|done|intros i a p; by rewrite lookup_empty|apply inv0]. Qed.
End object.

(** ** Any run *)
Record fit (s : over) : Prop := {
  f_vok : vok (o_cache s);
  f_open : forall i a p, o_open s !! i = Some (a, p) -> within hash (fun _ _ => True) p }.
Lemma fit_settle i a c p s : vok c -> within hash (fun _ _ => True) p -> fit s -> fit (settle i a c p s).
Proof.
  intros V W [F1 F2]. destruct p; cbn [settle]; split; cbn [o_cache o_open]; try done; intros j b q.
  - rewrite lookup_delete_Some. intros [_ Ej]. by eapply F2.
  - rewrite lookup_insert_Some. intros [[<- [= <- <-]]|[_ Ej]]; [done|by eapply F2].
  - rewrite lookup_insert_Some. intros [[<- [= <- <-]]|[_ Ej]]; [done|by eapply F2].
  - rewrite lookup_insert_Some. intros [[<- [= <- <-]]|[_ Ej]]; [done|by eapply F2].
  - rewrite lookup_insert_Some. intros [[<- [= <- <-]]|[_ Ej]]; [done|by eapply F2].
Qed.
Lemma fit_run l : forall s s', fit s -> Forall turn_ok l -> turns hash lister s l = Some s' -> fit s'.
Proof.
  induction l as [|t l IH]; intros s s' H F E; [by injection E as <-|]. rewrite turns_cons in E. apply Forall_cons in F as [F1 F2].
  destruct (turn_step hash lister s t) as [s1|] eqn:E1; [|done]. eapply IH; [|done..]. destruct t as [i a|i]; cbn [turn_step] in E1.
  - destruct (o_open s !! i); [done|]. injection E1 as <-. apply fit_settle; [apply H|by apply within_any|done].
  - destruct (o_open s !! i) as [[a p]|] eqn:Ei; [|done]. assert (W := within_access hash lister _ p (o_cache s) L (f_open _ H _ _ _ Ei) (f_vok _ H)).
    destruct (access lister (o_cache s) p) as [c p']. destruct W as (W1 & W2 & _). injection E1 as <-. by apply fit_settle.
Qed.
Lemma fit0 : fit over0.
Proof. split; cbn; [apply vok_empty|intros i a p; by rewrite lookup_empty]. Qed.

(** ** Who is over *)
Lemma done_ok_from l : forall s s', (forall i a p, o_open s !! i = Some (a, p) -> sact_ok a) -> Forall sact_ok (calls_over s) -> Forall turn_ok l -> turns hash lister s l = Some s' ->
  Forall sact_ok (calls_over s').
Proof.
  induction l as [|t l IH]; intros s s' Ho Hd F E; [by injection E as <-|]. rewrite turns_cons in E. apply Forall_cons in F as [F1 F2].
  destruct (turn_step hash lister s t) as [s1|] eqn:E1; [|done].
  assert (K : forall i a c p, sact_ok a -> (forall j b q, o_open (settle i a c p s) !! j = Some (b, q) -> sact_ok b) /\ Forall sact_ok (calls_over (settle i a c p s))).
  { intros i a c p A. split.
    - intros j b q. destruct p; cbn [settle o_open]; rewrite ?lookup_delete_Some, ?lookup_insert_Some; naive_solver.
    - destruct p; cbn [settle]; unfold calls_over in *; cbn [o_done]; try done. rewrite map_app. apply Forall_app. split; [done|]. by apply Forall_singleton. }
  destruct t as [i a|i]; cbn [turn_step] in E1.
  - destruct (o_open s !! i); [done|]. injection E1 as <-. destruct (K i a (o_cache s) (begin a) F1). by eapply IH.
  - destruct (o_open s !! i) as [[a p]|] eqn:Ei; [|done]. destruct (access lister (o_cache s) p) as [c p']. injection E1 as <-. destruct (K i a c p' (Ho _ _ _ Ei)). by eapply IH.
Qed.
Lemma done_ok l s : Forall turn_ok l -> turns hash lister over0 l = Some s -> Forall sact_ok (calls_over s).
Proof. intros F E. eapply done_ok_from; [| |exact F|exact E]; [intros i a p; cbn; by rewrite lookup_empty|constructor]. Qed.

(** ** Progress *)
Definition waits (i n : nat) (s : over) : Prop := match o_open s !! i with Some (a, p) => once n p /\ forall r, p <> Return r | None => True end.
Lemma waits_settle i n a c p s : once n p -> waits i n (settle i a c p s).
Proof. intros O. unfold waits. destruct p; cbn [settle o_open]; rewrite ?lookup_delete, ?lookup_insert; done. Qed.
Lemma settle_other i j a c p s : i <> j -> o_open (settle i a c p s) !! j = o_open s !! j.
Proof. intros N. destruct p; cbn [settle o_open]; by rewrite ?lookup_delete_ne, ?lookup_insert_ne. Qed.
Lemma wait_run i l : forall n s s', waits i n s -> (forall b, ~ In (Begin i b) l) -> turns hash lister s l = Some s' ->
  (length (List.filter (fun t => match t with Go j => Nat.eqb i j | _ => false end) l) <= n)%nat
  /\ (length (List.filter (fun t => match t with Go j => Nat.eqb i j | _ => false end) l) = n -> o_open s' !! i = None).
Proof.
  induction l as [|t l IH]; intros n s s' W N E.
  - injection E as <-. cbn. split; [lia|]. intros <-. unfold waits in W. destruct (o_open s !! i) as [[a p]|]; [|done]. destruct W as [W1 W2]. inversion W1; subst. by edestruct W2.
  - rewrite turns_cons in E. destruct (turn_step hash lister s t) as [s1|] eqn:E1; [|done]. assert (N' : forall b, ~ In (Begin i b) l) by (intros b Hb; apply (N b); by right).
    destruct t as [j a|j]; cbn [turn_step] in E1; cbn [List.filter].
    + assert (i <> j) by (intros <-; by apply (N a); left). destruct (o_open s !! j); [done|]. injection E1 as <-. apply (IH n _ _) in E; [done| |done].
      unfold waits. by rewrite settle_other.
    + destruct (o_open s !! j) as [[a p]|] eqn:Ej; [|done]. destruct (access lister (o_cache s) p) as [c p'] eqn:Ea. injection E1 as <-. destruct (Nat.eqb_spec i j) as [<-|Nj].
      * unfold waits in W. rewrite Ej in W. destruct W as [W1 W2]. assert (X := once_access lister n p (o_cache s) W1). rewrite Ea in X. destruct X as [X _].
        destruct n as [|n]; [inversion W1; subst; by edestruct W2|]. cbn [Nat.pred] in X. apply (IH n _ _) in E; [|by apply waits_settle|done]. destruct E as [E2 E3]. cbn [length]. split; [lia|]. intros E4. apply E3. lia.
      * apply (IH n _ _) in E; [done| |done]. unfold waits. by rewrite settle_other.
Qed.

(** ** Deciding whether calls are apart *)
Definition may_overlapb (a b : sact) : bool := reading a || reading b || (posting a && posting b) || bool_decide (subject a <> subject b).
Lemma may_overlapb_spec a b : may_overlapb a b = true -> may_overlap a b.
Proof. unfold may_overlapb, may_overlap. rewrite !orb_true_iff, andb_true_iff, bool_decide_eq_true. naive_solver. Qed.
Definition begins_apartb (s : over) (t : turn) : bool :=
  match t with Begin _ a => negb (collective a) && forallb (fun e => may_overlapb a e.2.1) (map_to_list (o_open s)) | Go _ => true end.
Fixpoint apartb (s : over) (l : list turn) : bool :=
  match l with [] => true | t :: l => begins_apartb s t && match turn_step hash lister s t with Some s' => apartb s' l | None => true end end.
Lemma apartb_spec l : forall s, apartb s l = true -> apart hash lister s l.
Proof.
  induction l as [|t l IH]; intros s H; [done|]. cbn [apartb] in H. apply andb_true_iff in H as [H1 H2]. split.
  - destruct t as [i a|i]; [|done]. cbn in H1. apply andb_true_iff in H1 as [H1 H3]. split; [by apply negb_true_iff|]. intros j b p Ej. rewrite forallb_forall in H3.
    apply may_overlapb_spec. apply (H3 (j, (b, p))). apply elem_of_list_In. by apply elem_of_map_to_list.
  - destruct (turn_step hash lister s t); [by apply IH|done].
Qed.
Definition may_includeb (o : gvk * (string * string)) (a : sact) : bool :=
  match a with
  | Api x (SDeleteAll ns _ _ _ _) => bool_decide (x = o.1) && (bool_decide (default EmptyString ns = EmptyString) || bool_decide (default EmptyString ns = o.2.1))
  | Write (VDeleteAll m s) => bool_decide (get_gvk m = o.1) && (bool_decide (sel_ns s = EmptyString) || bool_decide (sel_ns s = o.2.1))
  | _ => false
  end.
Lemma may_includeb_spec o a : may_includeb o a = false -> ~ may_include o a.
Proof.
  intros H M. destruct a as [x []|[]]; try done; cbn in *.
  - destruct M as [-> M]. rewrite bool_decide_true in H by done. cbn in H. apply orb_false_iff in H as [H1 H2]. apply bool_decide_eq_false in H1, H2. by destruct M.
  - destruct M as [M1 M]. rewrite bool_decide_true in H by done. cbn in H. apply orb_false_iff in H as [H1 H2]. apply bool_decide_eq_false in H1, H2. by destruct M.
Qed.
Definition begins_apart_onb (o : gvk * (string * string)) (s : over) (t : turn) : bool :=
  match t with Begin _ a => negb (may_includeb o a) && (negb (names o a) || forallb (fun e => negb (names o e.2.1) || may_overlapb a e.2.1) (map_to_list (o_open s))) | Go _ => true end.
Fixpoint apart_onb (o : gvk * (string * string)) (s : over) (l : list turn) : bool :=
  match l with [] => true | t :: l => begins_apart_onb o s t && match turn_step hash lister s t with Some s' => apart_onb o s' l | None => true end end.
Lemma apart_onb_spec o l : forall s, apart_onb o s l = true -> apart_on hash lister o s l.
Proof.
  induction l as [|t l IH]; intros s H; [done|]. cbn [apart_onb] in H. apply andb_true_iff in H as [H1 H2]. split.
  - destruct t as [i a|i]; [|done]. cbn in H1. apply andb_true_iff in H1 as [H1 H3]. split; [apply may_includeb_spec; by apply negb_true_iff|]. intros N j b p Ej Nb. rewrite N in H3. cbn in H3.
    rewrite forallb_forall in H3. apply may_overlapb_spec. specialize (H3 (j, (b, p))). cbn in H3. rewrite Nb in H3. apply H3. apply elem_of_list_In. by apply elem_of_map_to_list.
  - destruct (turn_step hash lister s t); [by apply IH|done].
Qed.
End serial.
