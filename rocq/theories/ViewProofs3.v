(** Proofs about watches and about overlapping calls (C31, C32). *)
From Verif Require Import ViewModel ZSetSpec OpsSpec GatherSpec ExecSpec JsonSpec CleanSpec PipelineSpec GroupSpec ValueSpec ViewSpec.
From Verif Require Import JsonProofs CleanProofs ReconcileProofs ObjProofs ValueProofs GroupProofs ViewProofs ViewProofs2.

(** ** Watches *)
Lemma only_cong sel (T T' : contents) i : T i = T' i -> only sel T i = only sel T' i.
Proof. unfold only. by intros ->. Qed.
Lemma watched_only sel es : forall (T U : contents), steady sel T es -> (forall i, U i = only sel T i) ->
  forall i, apply_ops U (omap request_of (List.filter (p_funcs sel) es)) i = only sel (apply_ops T (omap request_of es)) i.
Proof.
  induction es as [|e es IH]; intros T U Hs HU i; [apply HU|]. cbn [steady] in Hs. cbn [List.filter].
  destruct (request_of e) as [d|] eqn:Ed.
  - destruct Hs as [H1 H2]. assert (Ep : p_funcs sel e = sel (d_obj d)) by (destruct e as [m|old [m|]|m|m]; try done; by injection Ed as <-).
    assert (Eo : omap request_of (e :: es) = d :: omap request_of es) by (cbn; by rewrite Ed). rewrite Eo.
    change (apply_ops T (d :: omap request_of es)) with (apply_ops (apply_op T d) (omap request_of es)).
    rewrite Ep. destruct (sel (d_obj d)) eqn:Es.
    + assert (Eo' : omap request_of (e :: List.filter (p_funcs sel) es) = d :: omap request_of (List.filter (p_funcs sel) es)) by (cbn; by rewrite Ed). rewrite Eo'.
      change (apply_ops U (d :: omap request_of (List.filter (p_funcs sel) es))) with (apply_ops (apply_op U d) (omap request_of (List.filter (p_funcs sel) es))).
      apply IH; [done|]. intros j. unfold apply_op, only. case_decide; [|apply HU]. subst. destruct (d_type d); by rewrite ?Es.
    + apply IH; [done|]. intros j. rewrite HU. unfold apply_op, only. case_decide; [|done]. subst.
      destruct (T (obj_id (d_obj d))) as [old|]; [rewrite H1|]; destruct (d_type d); by rewrite ?Es.
  - assert (Eo : omap request_of (e :: es) = omap request_of es) by (cbn; by rewrite Ed). rewrite Eo. destruct (p_funcs sel e); [|by apply IH].
    assert (Eo' : omap request_of (e :: List.filter (p_funcs sel) es) = omap request_of (List.filter (p_funcs sel) es)) by (cbn; by rewrite Ed). rewrite Eo'. by apply IH.
Qed.
Lemma steady_id sel es : (forall a b, obj_id a = obj_id b -> sel a = sel b) -> forall T : contents, (forall i m, T i = Some m -> obj_id m = i) -> steady sel T es.
Proof.
  intros Hsel. induction es as [|e es IH]; intros T HT; [done|]. cbn [steady]. destruct (request_of e) as [d|]; [|by apply IH]. split.
  - destruct (T (obj_id (d_obj d))) as [old|] eqn:E; [|done]. apply Hsel. by apply HT.
  - apply IH. intros i m. unfold apply_op. case_decide; [|apply HT]. subst. destruct (d_type d); try done; by intros [= <-].
Qed.
Lemma watch_run_ok cap l : forall q r, keeps_up cap (length q) l ->
  let '(q', r') := foldl (watch_step cap) (q, r) l in r' ++ q' = r ++ q ++ sent l.
Proof.
  induction l as [|a l IH]; intros q r H; [by rewrite app_nil_r|]. cbn [foldl]. destruct a as [e|]; cbn [keeps_up] in H.
  - destruct H as [H1 H2]. cbn [watch_step fst snd]. rewrite (proj2 (Nat.ltb_lt _ _)) by done.
    specialize (IH (q ++ [e]) r). rewrite app_length, Nat.add_comm in IH. specialize (IH H2). destruct (foldl _ _ l) as [q' r']. rewrite IH.
    change (sent (Send e :: l)) with (e :: sent l). by rewrite <- !app_assoc.
  - cbn [watch_step fst snd]. change (sent (Recv :: l)) with (sent l). destruct q as [|e q]; [by apply IH|]. cbn [length] in H. rewrite Nat.sub_succ, Nat.sub_0_r in H.
    specialize (IH q (r ++ [e]) H). destruct (foldl _ _ l) as [q' r']. rewrite IH. by rewrite <- !app_assoc.
Qed.

(** ** Overlapping calls *)
Section race.
Variable hash : string -> string.
Variable lister : store -> list jobj.
Hypothesis Hl : lists_all lister.
Notation rstep := (rstep hash lister).
Notation rrun := (rrun hash lister).

Lemma rrun_cons r a l : rrun r (a :: l) = r' ← rstep r a; rrun r' l.
Proof.
  unfold ViewModel.rrun. cbn [foldl]. change (Some r ≫= (fun r' => rstep r' a)) with (rstep r a). destruct (rstep r a); [done|]. simpl.
  induction l as [|b l IH]; [done|]. cbn [foldl]. done.
Qed.

(** No object is missed. *)
Definition seen (r : race) (m : jobj) : Prop :=
  r_replay r = None
  \/ (exists l, r_replay r = Some l /\ In m l)
  \/ (exists e, In (PTrigger e) (r_open r) /\ brings e m)
  \/ (exists e, In e (r_log r) /\ brings e m).
Record no_miss (r : race) : Prop := {
  nm_reg : r_reg r = false -> r_replay r = None;
  nm_seen : forall k m, r_cache r !! k = Some m -> obj_copy m = m /\ seen r m }.
Lemma in_drop_nth {A} n (l : list A) x y : l !! n = Some y -> In x l -> x = y \/ In x (drop_nth n l).
Proof.
  intros Hn Hx. unfold drop_nth. rewrite <- (take_drop_middle l n y Hn) in Hx. apply in_app_iff in Hx as [Hx|[Hx|Hx]]; [right|by left|right]; apply in_app_iff; auto.
Qed.
Lemma brings_copied e m : obj_copy m = m -> brings e m -> brings (copied e) m.
Proof. intros H [->|(old & ->)]; cbn; rewrite H; [by left|right; eauto]. Qed.
Lemma no_miss_step r a r' : choice_ok a -> no_miss r -> rstep r a = Some r' -> no_miss r'.
Proof.
  intros Ha [N1 N2] E. destruct r as [s o reg rep log]. cbn [r_reg r_replay r_cache r_open r_log] in *.
  assert (Hw : forall m e, owf m -> brings e (stamp hash m) -> no_miss (Race (<[store_key (stamp hash m) := stamp hash m]> s) (o ++ [PTrigger e]) reg rep log)).
  { intros m e W B. split; [done|]. cbn [r_cache]. intros k m'. destruct (decide (k = store_key (stamp hash m))) as [->|Nk].
    - rewrite lookup_insert. intros [= <-]. split; [by apply stamp_copy|]. right. right. left. exists e. split; [|done]. apply in_app_iff. right. by left.
    - rewrite lookup_insert_ne by congruence. intros Hk. destruct (N2 _ _ Hk) as [C [H|[H|[(e' & H & B')|H]]]]; (split; [done|]).
      + by left. + right. by left. + right. right. left. exists e'. split; [|done]. apply in_app_iff. by left. + right. right. by right. }
  destruct a as [m|old m|m|n| | |]; cbn [ViewModel.rstep choice_ok] in *.
  - injection E as <-. apply Hw; [apply Ha|by left].
  - destruct (obj_equal old (stamp hash m)); injection E as <-; [by split|]. apply Hw; [apply Ha|right; eauto].
  - destruct (s !! store_key m) as [e|]; injection E as <-; [|by split]. split; [done|]. cbn [r_cache]. intros k m' Hk.
    destruct (N2 _ _ Hk) as [C [H|[H|[(e' & H & B')|H]]]]; (split; [done|]).
    + by left. + right. by left. + right. right. left. exists e'. split; [|done]. apply in_app_iff. by left. + right. right. by right.
  - destruct (o !! n) as [p|] eqn:En; [|done]. destruct p as [e|e]; injection E as <-.
    + split; [done|]. cbn [r_cache]. intros k m' [_ Hk]%lookup_delete_Some. destruct (N2 _ _ Hk) as [C [H|[H|[(e' & H & B')|H]]]]; (split; [done|]).
      * by left. * right. by left.
      * right. right. left. exists e'. split; [|done]. cbn [r_open] in *. apply elem_of_list_In, elem_of_list_lookup in H as (j & Hj).
        apply elem_of_list_In, elem_of_list_lookup. exists j. rewrite list_lookup_insert_ne; [done|]. intros ->. congruence.
      * right. right. by right.
    + split; [done|]. cbn [r_cache]. intros k m' Hk. destruct (N2 _ _ Hk) as [C [H|[H|[(e' & H & B')|(e' & H & B')]]]]; (split; [done|]).
      * by left. * right. by left.
      * cbn [r_open] in H. destruct reg; [|left; by apply N1]. destruct (in_drop_nth n o (PTrigger e') (PTrigger e) En H) as [[= ->]|H'].
        -- right. right. right. exists (copied e). split; [cbn; apply in_app_iff; right; by left|by apply brings_copied].
        -- right. right. left. exists e'. done.
      * right. right. right. exists e'. split; [|done]. cbn [r_log]. destruct reg; [apply in_app_iff; by left|done].
  - destruct reg; [done|]. injection E as <-. split; [done|]. cbn [r_cache]. intros k m' Hk. destruct (N2 _ _ Hk) as [C _]. split; [done|]. left. cbn. by apply N1.
  - destruct rep; [done|]. destruct reg; [|done]. injection E as <-. split; [done|]. cbn [r_cache]. intros k m' Hk. destruct (N2 _ _ Hk) as [C _]. split; [done|].
    right. left. exists (lister s). split; [done|]. apply (lister_in lister Hl). eauto.
  - destruct rep as [[|x l]|]; try done. injection E as <-. split; [intros H; by apply N1 in H|]. cbn [r_cache]. intros k m' Hk.
    destruct (N2 _ _ Hk) as [C [H|[(l' & H & Hin)|[(e' & H & B')|(e' & H & B')]]]]; (split; [done|]).
    + done.
    + cbn [r_replay] in H. injection H as <-. destruct Hin as [->|Hin].
      * right. right. right. exists (WCreate m'). split; [cbn; apply in_app_iff; right; left; by rewrite C|by left].
      * right. left. by exists l.
    + right. right. left. by exists e'.
    + right. right. right. exists e'. split; [|done]. cbn. apply in_app_iff. by left.
Qed.
Lemma no_miss_run l : forall r r', Forall choice_ok l -> no_miss r -> rrun r l = Some r' -> no_miss r'.
Proof.
  induction l as [|a l IH]; intros r r' Ha N E; [by injection E as <-|]. apply Forall_cons in Ha as [H1 H2]. rewrite rrun_cons in E.
  destruct (rstep r a) as [r1|] eqn:E1; [|done]. simpl in E. eapply IH; [done| |done]. by eapply no_miss_step.
Qed.
Lemma race_complete s l r : store_ok s -> Forall choice_ok l -> rrun (race0 s) l = Some r -> finished r ->
  forall k m, r_cache r !! k = Some m -> exists e, In e (r_log r) /\ brings e m.
Proof.
  intros Hs Ha E [F1 F2] k m Hk. assert (N : no_miss r).
  { eapply no_miss_run; [done| |done]. split; [done|]. cbn. intros k' m' Hk'. split; [by eapply Hs|]. by left. }
  destruct N as [_ N]. destruct (N _ _ Hk) as [_ [H|[(l' & H & Hin)|[(e' & H & B')|H]]]]; [congruence|rewrite F2 in H; by injection H as <-|by rewrite F1 in H|done].
Qed.

(** Orderly calls. *)
Lemma store_replayed s : store_ok s -> forall i, plain i -> replayed (map WCreate (lister s)) i = s !! skey i.1 i.2.
Proof.
  intros H i Hi. unfold replayed. assert (E : omap request_of (map WCreate (lister s)) = map (Delta Added) (lister s)).
  { generalize (lister s). intros l. induction l as [|m l IH]; [done|]. cbn. by f_equal. }
  rewrite E. clear E. assert (NK : NoDup (map store_key (lister s))).
  { assert (P : Permutation (map store_key (lister s)) (map fst (map_to_list s))).
    { rewrite (Hl _), map_map. apply Permutation_refl'. apply map_ext_in. intros [k m] Hin. simpl. apply elem_of_list_In, elem_of_map_to_list in Hin. by destruct (H _ _ Hin). }
    rewrite P. apply NoDup_fst_map_to_list. }
  assert (ND : NoDup (map (fun d => obj_id (d_obj d)) (map (Delta Added) (lister s)))).
  { revert NK. generalize (lister s). intros l N. induction l as [|m l IH]; [constructor|].
    cbn [map] in *. apply NoDup_cons in N as [N1 N2]. constructor; [|by apply IH]. intros E. apply N1. apply elem_of_list_In, in_map_iff in E as (d & E & Hin).
    apply in_map_iff in Hin as (m' & <- & Hin). apply elem_of_list_In, in_map_iff. exists m'. split; [|done]. cbn [d_obj] in E. by rewrite !store_key_skey, E. }
  destruct (s !! skey i.1 i.2) as [m|] eqn:Ew.
  - destruct (H _ _ Ew) as (Ek & Hp & _). rewrite store_key_skey in Ek. apply skey_inj in Ek; [|done..].
    rewrite <- Ek. rewrite (apply_ops_in _ _ (Delta Added m)); [done|done|]. apply in_map, (lister_in lister Hl). eauto.
  - rewrite apply_ops_notin; [done|]. rewrite in_map_iff. intros (d & E & Hin). apply in_map_iff in Hin as (m & <- & Hin). cbn [d_obj] in E.
    apply (lister_in lister Hl) in Hin as (k & Hk). destruct (H _ _ Hk) as (Ek & _ & _). rewrite store_key_skey, E in Ek. congruence.
Qed.
Lemma replayed_snoc log e d i : request_of e = Some d -> replayed (log ++ [e]) i = apply_op (replayed log) d i.
Proof.
  intros E. unfold replayed. rewrite omap_app. unfold apply_ops. rewrite foldl_app. change (omap request_of [e]) with (match request_of e with Some x => [x] | None => [] end). by rewrite E.
Qed.

(** An open call and the object it is about. *)
Definition pend_ok (s : store) (log : list wevent) (p : pend) : Prop :=
  match p with
  | PRemove m => plain (obj_id m) /\ obj_copy m = m /\ replayed log (obj_id m) = s !! store_key m
  | PTrigger e => exists d, request_of e = Some d /\ plain (obj_id (d_obj d)) /\ copied e = e /\ pend_key p = store_key (d_obj d)
      /\ apply_op (replayed log) d (obj_id (d_obj d)) = s !! store_key (d_obj d)
  end.
Record in_step (r : race) : Prop := {
  is_reg : r_reg r = true;
  is_rep : r_replay r = Some [];
  is_store : store_ok (r_cache r);
  is_nodup : NoDup (map pend_key (r_open r));
  is_quiet : forall i, plain i -> skey i.1 i.2 ∉ map pend_key (r_open r) -> replayed (r_log r) i = r_cache r !! skey i.1 i.2;
  is_open : forall p, In p (r_open r) -> pend_ok (r_cache r) (r_log r) p }.
(** Before the registration has ended. *)
Record starting (r : race) : Prop := {
  st_open : r_open r = [];
  st_store : store_ok (r_cache r);
  st_log : match r_replay r with None => r_log r = [] | Some l => r_reg r = true /\ exists l0, lister (r_cache r) = l0 ++ l /\ r_log r = map WCreate l0 end }.
Definition orderly_inv (r : race) : Prop := in_step r \/ (starting r /\ r_replay r <> Some []).

Lemma pend_key_own s log p : pend_ok s log p -> exists i, plain i /\ pend_key p = skey i.1 i.2.
Proof.
  destruct p as [m|e]; [intros (Hp & _); exists (obj_id m); done|]. intros (d & Ed & Hp & _ & Ek & _). exists (obj_id (d_obj d)). done.
Qed.
Lemma pend_frame s s' log p k v : pend_ok s log p -> pend_key p <> k -> s' = <[k := v]> s -> pend_ok s' log p.
Proof.
  intros H N ->. destruct p as [m|e]; cbn in *.
  - by rewrite lookup_insert_ne.
  - destruct H as (d & Ed & Hp & C & Ek & H). exists d. split_and!; try done. rewrite lookup_insert_ne; [done|]. cbn in Ek. congruence.
Qed.
Lemma pend_frame_del s s' log p k : pend_ok s log p -> pend_key p <> k -> s' = delete k s -> pend_ok s' log p.
Proof.
  intros H N ->. destruct p as [m|e]; cbn in *.
  - by rewrite lookup_delete_ne.
  - destruct H as (d & Ed & Hp & C & Ek & H). exists d. split_and!; try done. rewrite lookup_delete_ne; [done|]. cbn in Ek. congruence.
Qed.
Lemma store_ok_insert s m : store_ok s -> plain (obj_id m) -> obj_copy m = m -> store_ok (<[store_key m := m]> s).
Proof. intros H Hp C k m' [[<- <-]|[_ E]]%lookup_insert_Some; [done|]. by apply H. Qed.
Lemma store_ok_delete s k : store_ok s -> store_ok (delete k s).
Proof. intros H j m' [_ E]%lookup_delete_Some. by apply H. Qed.

Lemma write_step s o log m e d : store_ok s -> NoDup (map pend_key o) -> owf m -> plain (obj_id m) -> store_key m ∉ map pend_key o ->
  (forall i, plain i -> skey i.1 i.2 ∉ map pend_key o -> replayed log i = s !! skey i.1 i.2) -> (forall p, In p o -> pend_ok s log p) ->
  request_of e = Some d -> d_obj d = stamp hash m -> d_type d <> Deleted -> copied e = e -> pend_key (PTrigger e) = store_key m ->
  in_step (Race (<[store_key (stamp hash m) := stamp hash m]> s) (o ++ [PTrigger e]) true (Some []) log).
Proof.
  intros Hs Nd W Hp Nk Q O Ed Eo Et C Ek.
  split; cbn [r_reg r_replay r_cache r_open r_log]; try done.
  - apply store_ok_insert; [done|by rewrite stamp_id|by apply stamp_copy].
  - rewrite map_app. apply NoDup_app. split_and!; [done| |apply NoDup_singleton]. intros x Hx Hx'. apply elem_of_list_singleton in Hx'. subst x. by rewrite Ek in Hx.
  - intros i Hi Ni. rewrite map_app, not_elem_of_app in Ni. destruct Ni as [N1 N2]. rewrite lookup_insert_ne; [by apply Q|].
    rewrite stamp_key. intros E. apply N2. cbn [map]. apply elem_of_list_singleton. by rewrite Ek.
  - intros p Hin. apply in_app_iff in Hin as [Hin|[<-|[]]].
    + eapply pend_frame; [by apply O| |done]. rewrite stamp_key. intros E. apply Nk. rewrite <- E. apply elem_of_list_In. by apply in_map.
    + exists d. rewrite Eo. split_and!; try done; [by rewrite stamp_id|by rewrite stamp_key|]. rewrite lookup_insert. unfold apply_op. rewrite Eo, decide_True by done. by destruct (d_type d).
Qed.
Lemma pend_key_nth {o : list pend} {n p} k : o !! n = Some p -> k ∉ map pend_key (drop_nth n o) -> k = pend_key p \/ k ∉ map pend_key o.
Proof.
  intros En N. destruct (decide (k = pend_key p)) as [->|Nk]; [by left|]. right. intros E. apply elem_of_list_In, in_map_iff in E as (q & Eq & Hin).
  apply (in_drop_nth n o q p En) in Hin as [->|Hin]; [congruence|]. apply N. apply elem_of_list_In, in_map_iff. eauto.
Qed.
Lemma in_step_step r a r' : choice_ok a -> orderly r a -> in_step r -> rstep r a = Some r' -> in_step r'.
Proof.
  intros Ha Ho [I1 I2 I3 I4 I5 I6] E. destruct r as [s o reg rep log]. cbn [r_reg r_replay r_cache r_open r_log] in *. subst reg rep.
  destruct a as [m|old m|m|n| | |]; cbn [ViewModel.rstep choice_ok orderly choice_key r_open r_reg r_replay] in *.
  - injection E as <-. destruct Ha as [W Hp], Ho as (_ & _ & Nk).
    eapply (write_step s o log m _ (Delta Added (stamp hash m))); try done; [cbn; by rewrite stamp_copy|cbn; by rewrite stamp_key].
  - destruct (obj_equal old (stamp hash m)); injection E as <-; [by split|]. destruct Ha as [W Hp], Ho as (_ & _ & Nk).
    eapply (write_step s o log m _ (Delta Updated (stamp hash m))); try done; [cbn; by rewrite stamp_copy|cbn; by rewrite stamp_key].
  - destruct (s !! store_key m) as [e|] eqn:Ee; injection E as <-; [|by split]. destruct Ho as (_ & _ & Nk). destruct (I3 _ _ Ee) as (Ek & Hp & C).
    split; cbn [r_reg r_replay r_cache r_open r_log]; try done.
    + rewrite map_app. apply NoDup_app. split_and!; [done| |apply NoDup_singleton]. intros x Hx Hx'. apply elem_of_list_singleton in Hx'. subst x. cbn in Hx. by rewrite Ek in Hx.
    + intros i Hi Ni. rewrite map_app, not_elem_of_app in Ni. destruct Ni as [N1 N2]. by apply I5.
    + intros p Hin. apply in_app_iff in Hin as [Hin|[<-|[]]]; [by apply I6|]. cbn. split_and!; [done..|]. rewrite store_key_skey. apply I5; [done|].
      rewrite <- store_key_skey. by rewrite Ek.
  - destruct (o !! n) as [p|] eqn:En; [|done]. assert (Hin : In p o) by (apply elem_of_list_In; by eapply elem_of_list_lookup_2). assert (Hp := I6 p Hin).
    destruct p as [e|e]; injection E as <-.
    + destruct Hp as (Hp & C & Hr). assert (Em : map pend_key (<[n:=PTrigger (WDelete e)]> o) = map pend_key o).
      { apply list_eq. intros j. rewrite !list_lookup_fmap. destruct (decide (n = j)) as [<-|Nj].
        - rewrite list_lookup_insert by (by eapply lookup_lt_Some). by rewrite En.
        - by rewrite list_lookup_insert_ne. }
      split; cbn [r_reg r_replay r_cache r_open r_log]; try done.
      * by apply store_ok_delete.
      * by rewrite Em.
      * rewrite Em. intros i Hi Ni. rewrite lookup_delete_ne; [by apply I5|]. intros Ek. apply Ni. rewrite <- Ek. apply elem_of_list_In.
        by apply (in_map pend_key) in Hin.
      * intros q Hq. apply elem_of_list_In, elem_of_list_lookup in Hq as (j & Hj). destruct (decide (n = j)) as [<-|Nj].
        -- rewrite list_lookup_insert in Hj by (by eapply lookup_lt_Some). injection Hj as <-. exists (Delta Deleted e). cbn [request_of d_obj d_type]. split_and!; try done.
           ++ cbn. by rewrite C.
           ++ rewrite lookup_delete. unfold apply_op. by rewrite decide_True.
        -- rewrite list_lookup_insert_ne in Hj by done. assert (Hq : In q o) by (apply elem_of_list_In; by eapply elem_of_list_lookup_2).
           eapply pend_frame_del; [by apply I6| |done]. intros Ek. apply Nj.
           eapply (NoDup_lookup (map pend_key o)); [done| |].
           { rewrite list_lookup_fmap, En. done. } { rewrite list_lookup_fmap, Hj. simpl. by rewrite Ek. }
    + destruct Hp as (d & Ed & Hp & C & Ek & Hr). rewrite C.
      assert (Nd : NoDup (map pend_key (drop_nth n o))).
      { assert (I4' := I4). rewrite <- (take_drop_middle o n _ En) in I4'. rewrite map_app in I4'. cbn [map] in I4'. unfold drop_nth. rewrite map_app.
        apply NoDup_app in I4' as (A1 & A2 & A3). apply NoDup_cons in A3 as [A3 A4]. apply NoDup_app. split_and!; [done| |done]. intros x Hx Hx'. apply (A2 x Hx). by right. }
      assert (Other : forall q, In q (drop_nth n o) -> In q o /\ pend_key q <> store_key (d_obj d)).
      { intros q Hq. rewrite <- Ek. rewrite <- (take_drop_middle o n _ En) in I4. rewrite map_app in I4. cbn [map] in I4. apply NoDup_app in I4 as (A1 & A2 & A3). apply NoDup_cons in A3 as [A3 A4].
        rewrite <- (take_drop_middle o n _ En). unfold drop_nth in Hq. apply in_app_iff in Hq as [Hq|Hq]; (split; [apply in_app_iff; simpl; auto|]).
        - intros Eq. apply (A2 (pend_key q)); [apply elem_of_list_In; by apply in_map|]. rewrite Eq. left.
        - intros Eq. apply A3. rewrite <- Eq. apply elem_of_list_In. by apply in_map. }
      assert (Rest : forall i, plain i -> skey i.1 i.2 <> store_key (d_obj d) -> replayed (log ++ [e]) i = replayed log i).
      { intros i Hi Ni. rewrite (replayed_snoc log e d) by done. unfold apply_op. rewrite decide_False; [done|]. intros ->. by apply Ni. }
      split; cbn [r_reg r_replay r_cache r_open r_log]; try done.
      * intros i Hi Ni. destruct (pend_key_nth (skey i.1 i.2) En Ni) as [Ei|N'].
        -- rewrite Ek, store_key_skey in Ei. apply skey_inj in Ei; [|done..]. subst i. rewrite (replayed_snoc log e d) by done. exact Hr.
        -- rewrite Rest; [by apply I5|done|]. intros Ei. apply N'. rewrite Ei, <- Ek. apply elem_of_list_In. by apply (in_map pend_key) in Hin.
      * intros q Hq. destruct (Other q Hq) as [Hq' Nq]. assert (Hok := I6 q Hq'). destruct q as [m|e']; cbn [pend_ok] in *.
        -- destruct Hok as (P1 & P2 & P3). split_and!; [done..|]. rewrite Rest; [done..|]. by rewrite <- store_key_skey.
        -- destruct Hok as (d' & Ed' & Hp' & C' & Ek' & Hr'). exists d'. split_and!; try done. rewrite <- Hr'. unfold apply_op. rewrite !decide_True by done. by destruct (d_type d').
  - done.
  - done.
  - done.
Qed.
Lemma starting_step r a r' : orderly r a -> starting r -> r_replay r <> Some [] -> rstep r a = Some r' -> starting r'.
Proof.
  intros Ho [S1 S2 S3] Nr E. destruct r as [s o reg rep log]. cbn [r_reg r_replay r_cache r_open r_log] in *. subst o.
  destruct a as [m|old m|m|n| | |]; cbn [ViewModel.rstep orderly choice_key r_replay] in *.
  - by destruct Ho as (_ & ? & _).
  - by destruct Ho as (_ & ? & _).
  - by destruct Ho as (_ & ? & _).
  - done.
  - destruct reg; [done|]. injection E as <-. split; [done..|]. cbn. destruct rep; [by destruct S3|done].
  - destruct rep; [done|]. destruct reg; [|done]. injection E as <-. split; [done..|]. cbn. split; [done|]. exists []. by rewrite S3.
  - destruct rep as [[|m l]|]; try done. injection E as <-. split; [done..|]. cbn. destruct S3 as (R & l0 & E1 & E2). split; [done|]. exists (l0 ++ [m]).
    rewrite <- app_assoc. split; [done|]. rewrite E2, map_app. cbn [map]. do 3 f_equal.
    assert (Hm : In m (lister s)) by (rewrite E1; apply in_app_iff; right; by left). apply (lister_in lister Hl) in Hm as (k & Hk). by destruct (S2 _ _ Hk) as (_ & _ & ?).
Qed.
Lemma starting_done r : starting r -> r_replay r = Some [] -> in_step r.
Proof.
  intros [S1 S2 S3] R. rewrite R in S3. destruct S3 as (Hr & l0 & E1 & E2). rewrite app_nil_r in E1. split; try done.
  - rewrite S1. constructor.
  - intros i Hi _. rewrite E2, <- E1. by apply store_replayed.
  - rewrite S1. by intros p [].
Qed.
Lemma orderly_inv_run l : forall r r', Forall choice_ok l -> orderly_run hash lister r l -> orderly_inv r -> rrun r l = Some r' -> orderly_inv r'.
Proof.
  induction l as [|a l IH]; intros r r' Ha Ho I E; [by injection E as <-|]. apply Forall_cons in Ha as [H1 H2]. rewrite rrun_cons in E. cbn [orderly_run] in Ho. destruct Ho as [O1 O2].
  destruct (rstep r a) as [r1|] eqn:E1; [|done]. simpl in E. eapply IH; [done|done| |done]. destruct I as [I|[I N]].
  - left. by eapply in_step_step.
  - assert (S1 := starting_step _ _ _ O1 I N E1). destruct (decide (r_replay r1 = Some [])) as [R|R]; [left; by apply starting_done|by right].
Qed.
Lemma race_orderly s l r : store_ok s -> Forall choice_ok l -> orderly_run hash lister (race0 s) l -> rrun (race0 s) l = Some r -> finished r ->
  forall i, plain i -> replayed (r_log r) i = r_cache r !! skey i.1 i.2.
Proof.
  intros Hs Ha Ho E [F1 F2] i Hi. assert (I : orderly_inv r).
  { eapply orderly_inv_run; [done|done| |done]. right. split; [by split|done]. }
  destruct I as [I|[_ N]]; [|done]. destruct I as [_ _ _ _ Q _]. rewrite F1 in Q. apply Q; [done|apply not_elem_of_nil].
Qed.
End race.
