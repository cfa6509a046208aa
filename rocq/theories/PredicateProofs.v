From Verif Require Import JsonProofs PredicateModel ZSetSpec OpsSpec GatherSpec ExecSpec JsonSpec CleanSpec PipelineSpec PredicateSpec.
From Verif Require Import ObjProofs.

Lemma pred_ind' (Q : pred -> Prop) : (forall s m, Q (Pred (Some s) m)) -> Q (Pred None None) ->
  (forall m, (forall k ps p, In (k, ps) m -> In p ps -> Q p) -> Q (Pred None (Some m))) -> forall p, Q p.
Proof.
  intros H1 H2 H3. fix IH 1. intros [[s|] [m|]]; [apply H1|apply H1| |apply H2].
  apply H3. induction m as [|[k ps] m IHm]; [intros ? ? ? []|]. intros k' ps' p [E|Hin]; [|by eapply IHm].
  injection E as <- <-. revert p. induction ps as [|q ps IHp]; [intros ? []|]. intros p [<-|Hin]; [apply IH|by apply IHp].
Qed.

(** ** Formulas *)
Definition compile_all := fix go (ps : list pred) : option (list predicate) :=
  match ps with [] => Some [] | p :: ps => f ← to_predicate p; l ← go ps; Some (f :: l) end.
Lemma to_predicate_bool k ps : to_predicate (Pred None (Some [(k, ps)])) = (l ← compile_all ps; bool_predicate k l).
Proof. reflexivity. Qed.
Lemma changed_spec {A} `{EqDecision A} (f : jobj -> A) e : changed f e = true <-> differs f e.
Proof. destruct e as [|[] []| |]; simpl; try done. rewrite negb_true_iff, bool_decide_eq_false. done. Qed.

Definition right (p : pred) : Prop := forall f, to_predicate p = Some f -> exists F, denotes p F /\ forall e, f e = true <-> holds e F.
Lemma all_right ps : (forall p, In p ps -> right p) -> forall l, compile_all ps = Some l ->
  exists Fs, denote_all ps Fs /\ forall e, Forall2 (fun (f : predicate) F => f e = true <-> holds e F) l Fs.
Proof.
  induction ps as [|p ps IH]; intros H l E.
  - injection E as <-. exists []. split; [constructor|]. intros e. constructor.
  - cbn in E. apply bind_Some in E as (f & Ef & E). apply bind_Some in E as (l' & El & [= <-]).
    destruct (H p (or_introl eq_refl) f Ef) as (F & D & HF). destruct (IH (fun q Hq => H q (or_intror Hq)) l' El) as (Fs & Ds & HFs).
    exists (F :: Fs). split; [by constructor|]. intros e. constructor; [apply HF|apply HFs].
Qed.
Lemma and_spec e (l : list predicate) Fs : Forall2 (fun (f : predicate) F => f e = true <-> holds e F) l Fs -> p_and l e = true <-> holds e (FAnd Fs).
Proof. intros H. induction H as [|f F l Fs H1 H2 IH]; [done|]. cbn. rewrite andb_true_iff, H1. unfold p_and in IH. rewrite IH. done. Qed.
Lemma or_spec e (l : list predicate) Fs : Forall2 (fun (f : predicate) F => f e = true <-> holds e F) l Fs -> p_or l e = true <-> holds e (FOr Fs).
Proof. intros H. induction H as [|f F l Fs H1 H2 IH]; [done|]. cbn. rewrite orb_true_iff, H1. unfold p_or in IH. rewrite IH. done. Qed.
Lemma to_predicate_right p : right p.
Proof.
  induction p as [s m| |m IH] using pred_ind'; intros f E; [|done|].
  - cbn [to_predicate] in E. unfold basic_predicate in E. repeat case_decide; subst; try done; injection E as <-;
      eexists; (split; [constructor|]); intros e; apply changed_spec.
  - destruct m as [|[k ps] [|]]; [done| |done]. rewrite to_predicate_bool in E. apply bind_Some in E as (l & El & E).
    destruct (all_right ps (fun p Hp => IH k ps p (or_introl eq_refl) Hp) l El) as (Fs & Ds & HFs).
    unfold bool_predicate in E. repeat case_decide; subst; try done.
    + injection E as <-. exists (FAnd Fs). split; [by constructor|]. intros e. by apply and_spec.
    + injection E as <-. exists (FOr Fs). split; [by constructor|]. intros e. by apply or_spec.
    + destruct l as [|g [|]]; try done. injection E as <-.
      destruct Fs as [|F [|]]; [specialize (HFs (WGeneric [])); by inversion HFs| |specialize (HFs (WGeneric [])); inversion HFs as [|? ? ? ? ? HH]; by inversion HH].
      inversion Ds as [|p' F' ps' Fs' Dp Dn]; subst. inversion Dn; subst. exists (FNot F). split; [by constructor|].
      intros e. specialize (HFs e). inversion HFs as [|? ? ? ? Hg _]; subst. unfold p_not. cbn. rewrite negb_true_iff. destruct (g e); split; try done.
      * intros Hn. exfalso. apply Hn. by apply Hg.
      * intros _ Hy. by apply Hg in Hy.
Qed.
Scheme denotes_mut := Induction for denotes Sort Prop with denote_all_mut := Induction for denote_all Sort Prop.
Lemma denotes_compiles p F : denotes p F -> is_Some (to_predicate p).
Proof.
  intros D. apply (denotes_mut (fun p F _ => is_Some (to_predicate p)) (fun ps Fs _ => is_Some (compile_all ps))) with (f := F); try done; try (intros; by eexists).
  - intros ps l _ [x Hx]. rewrite to_predicate_bool, Hx. by eexists.
  - intros ps l _ [x Hx]. rewrite to_predicate_bool, Hx. by eexists.
  - intros p0 f _ [x Hx]. rewrite to_predicate_bool. cbn. rewrite Hx. by eexists.
  - intros p0 f ps l _ [x Hx] _ [y Hy]. cbn. rewrite Hx. cbn. rewrite Hy. by eexists.
Qed.

(** ** Serialisation *)
Definition marshal_list := fix gol (ps : list pred) : option (list json) :=
  match ps with [] => Some [] | p :: ps => v ← marshal p; l ← gol ps; Some (v :: l) end.
Definition marshal_map := fix go (m : list (string * list pred)) : option jobj :=
  match m with
  | [] => Some []
  | (k, ps) :: m => l ← marshal_list ps; m' ← go m; Some ((k, JList l) :: m')
  end.
Definition unmarshal_list := fix gol (l : list json) : option (list pred) :=
  match l with [] => Some [] | v :: l => p ← unmarshal v; ps ← gol l; Some (p :: ps) end.
Definition unmarshal_map := fix go (m : jobj) : option (list (string * list pred)) :=
  match m with
  | [] => Some []
  | (k, v) :: m => ps ← match v with JNull => Some [] | JList l => unmarshal_list l | _ => None end; m' ← go m; Some ((k, ps) :: m')
  end.
Lemma marshal_round p : plain_pred p -> exists v, marshal p = Some v /\ unmarshal v = Some p.
Proof.
  induction p as [s m| |m IH] using pred_ind'; intros H.
  - inversion H; subst. by exists (JStr s).
  - inversion H.
  - inversion H as [|? HP]; subst. clear H.
    assert (G : exists j, marshal_map m = Some j /\ unmarshal_map j = Some m).
    { induction m as [|[k ps] m IHm]; [by exists []|].
      destruct IHm as (j & Ej & Uj); [intros k' ps' p Hin Hp; by eapply IH; [right|]|intros k' ps' p Hin Hp; by eapply HP; [right|]|].
      assert (GL : exists l, marshal_list ps = Some l /\ unmarshal_list l = Some ps).
      { assert (IH' : forall p, In p ps -> exists v, marshal p = Some v /\ unmarshal v = Some p).
        { intros p Hp. eapply IH; [by left|done|]. eapply HP; [by left|done]. }
        clear -IH'. induction ps as [|p ps IHp]; [by exists []|]. destruct (IH' p (or_introl eq_refl)) as (v & Ev & Uv).
        destruct IHp as (l & El & Ul); [intros q Hq; apply IH'; by right|]. exists (v :: l). cbn. rewrite Ev. cbn. rewrite El. cbn. rewrite Uv. cbn. by rewrite Ul. }
      destruct GL as (l & El & Ul). exists ((k, JList l) :: j). cbn. rewrite El. cbn. rewrite Ej. cbn. rewrite Ul. cbn. by rewrite Uj. }
    destruct G as (j & Ej & Uj). exists (JMap j). change (marshal (Pred None (Some m))) with (m' ← marshal_map m; Some (JMap m')). rewrite Ej. split; [done|].
    change (unmarshal (JMap j)) with (m' ← unmarshal_map j; Some (Pred None (Some m'))). by rewrite Uj.
Qed.

(** ** Sources *)
Lemma after_snoc ds d : after (ds ++ [d]) = apply_event (after ds) d.
Proof. unfold after. by rewrite foldl_app. Qed.
Lemma select_gen sel evs : (forall m, sel (stripped m) = sel m) -> forall w, (forall x m, w !! x = Some m -> source_id m = x) ->
  informer w evs -> stable sel evs ->
  foldl apply_event (filter (fun xm => sel xm.2 = true) w) (omap request_of (List.filter (p_funcs sel) evs))
  = filter (fun xm => sel xm.2 = true) (foldl apply_event w (omap request_of evs)).
Proof.
  intros Hs. induction evs as [|e evs IH]; intros w Hw HI HS; [done|].
  assert (HS' : stable sel evs) by (intros old m H; apply (HS old m); by right).
  assert (Hw' : forall m x m', <[source_id m := stripped m]> w !! x = Some m' -> source_id m' = x).
  { intros m x m'. rewrite lookup_insert_Some. intros [[<- <-]|[_ H]]; [apply stripped_source|by apply Hw]. }
  destruct e as [m|[old|] [m|]|m|m]; cbn [informer] in HI; cbn [List.filter p_funcs].
  - destruct HI as [Hn HI]. rewrite <-(Hs m). destruct (sel (stripped m)) eqn:E; cbn.
    + rewrite <-map_filter_insert_True by done. by apply IH; [apply Hw'| |].
    + rewrite <-IH; [|apply Hw'|done|done]. f_equal. rewrite map_filter_insert_False by (cbn; by rewrite E). by rewrite delete_notin.
  - destruct HI as (Hid & Hold & HI). pose proof (HS old m (or_introl eq_refl)) as Eo. rewrite <-(Hs m).
    destruct (sel (stripped m)) eqn:E; cbn.
    + rewrite <-map_filter_insert_True by done. by apply IH; [apply Hw'| |].
    + rewrite <-IH; [|apply Hw'|done|done]. f_equal. rewrite map_filter_insert_False by (cbn; by rewrite E).
      rewrite map_filter_delete, delete_notin; [done|]. rewrite map_filter_lookup_None. right. intros x Hx. rewrite Hold in Hx. injection Hx as <-. cbn.
      rewrite Hs, Eo, <-Hs, E. done.
  - done.
  - done.
  - done.
  - destruct HI as (Hold & HI). assert (Hw2 : forall x m', delete (source_id m) w !! x = Some m' -> source_id m' = x).
    { intros x m'. rewrite lookup_delete_Some. intros [_ H]. by apply Hw. }
    rewrite <-(Hs m). destruct (sel (stripped m)) eqn:E; cbn.
    + rewrite <-map_filter_delete. by apply IH.
    + rewrite <-IH; [|done..]. f_equal. rewrite map_filter_delete, delete_notin; [done|]. rewrite map_filter_lookup_None. right. intros x Hx. rewrite Hold in Hx. injection Hx as <-. cbn. by rewrite E.
  - destruct (sel m); cbn; by apply IH.
Qed.
Lemma select_ok sel evs : (forall m, sel (stripped m) = sel m) -> informer ∅ evs -> stable sel evs ->
  after (requests [p_funcs sel] evs) = filter (fun xm => sel xm.2 = true) (objects evs).
Proof.
  intros Hs HI HS. unfold objects, after. rewrite <-(select_gen sel evs Hs ∅) by done. rewrite map_filter_empty. unfold requests.
  f_equal. f_equal. apply List.filter_ext. intros e. cbn. by rewrite andb_true_r.
Qed.
Lemma namespace_stripped ns m : bool_decide (get_namespace (stripped m) = ns) = bool_decide (get_namespace m = ns).
Proof. pose proof (stripped_id m) as E. unfold obj_id in E. injection E as -> _. done. Qed.
Lemma informer_namespace evs : forall w, informer w evs -> forall ns, stable (fun m => bool_decide (get_namespace m = ns)) evs.
Proof.
  induction evs as [|e evs IH]; intros w HI ns old m; [intros []|]. intros [->|Hin].
  - cbn in HI. destruct HI as (E & _). unfold source_id, obj_id in E. injection E as _ E _. by rewrite E.
  - destruct e as [|[] []| |]; cbn in HI; try done; [destruct HI as [_ HI]|destruct HI as (_ & _ & HI)|destruct HI as [_ HI]|]; by eapply IH.
Qed.
Lemma denotes_fun p F : denotes p F -> forall F', denotes p F' -> F = F'.
Proof.
  intros D. apply (denotes_mut (fun p F _ => forall F', denotes p F' -> F = F') (fun ps Fs _ => forall Fs', denote_all ps Fs' -> Fs = Fs')) with (p := p) (f := F); try done.
  - intros m F' H. by inversion H.
  - intros m F' H. by inversion H.
  - intros m F' H. by inversion H.
  - intros m F' H. by inversion H.
  - intros ps l _ IH F' H. inversion H; subst. f_equal. by apply IH.
  - intros ps l _ IH F' H. inversion H; subst. f_equal. by apply IH.
  - intros q f _ IH F' H. inversion H; subst. f_equal. by apply IH.
  - intros Fs' H. by inversion H.
  - intros q f ps l _ IH1 _ IH2 Fs' H. inversion H; subst. f_equal; auto.
Qed.
Lemma formula_spec p F : denotes p F -> exists f, to_predicate p = Some f /\ forall e, f e = true <-> holds e F.
Proof.
  intros D. destruct (denotes_compiles p F D) as [f E]. exists f. split; [done|]. destruct (to_predicate_right p f E) as (F' & D' & H).
  by rewrite (denotes_fun p F D F' D').
Qed.
Lemma formula_only p : (exists f, to_predicate p = Some f) <-> exists F, denotes p F.
Proof.
  split; [|intros [F D]; destruct (formula_spec p F D) as (f & ? & _); by exists f].
  intros [f E]. destruct (to_predicate_right p f E) as (F & D & _). by exists F.
Qed.
Lemma select_namespace ns evs : informer ∅ evs ->
  after (requests [p_funcs (fun m => bool_decide (get_namespace m = ns))] evs) = filter (fun xm => bool_decide (get_namespace xm.2 = ns) = true) (objects evs).
Proof. intros HI. apply (select_ok (fun m => bool_decide (get_namespace m = ns))); [apply namespace_stripped|done|by eapply informer_namespace]. Qed.
Lemma labels_stripped m : get_labels (stripped m) = get_labels m.
Proof.
  unfold get_labels. f_equal. transitivity (nested_get (obj_copy m) ["metadata"; "labels"]%string).
  - unfold stripped, remove_uid. case_match; [done|]. cbn [nested_del nested_get]. destruct (mget (obj_copy m) "metadata") as [[]|] eqn:E; try by rewrite E.
    rewrite mget_set_eq. by rewrite mget_del_ne by done.
  - cbn [nested_get]. by rewrite (copy_meta m).
Qed.
Lemma selected_stripped f ns m : selected f ns (stripped m) = selected f ns m.
Proof. unfold selected. rewrite labels_stripped. destruct ns as [ns|]; [|done]. by rewrite namespace_stripped. Qed.
Lemma source_passes f ns e : match source_predicates None f ns with Some ps => forall m, subject e = Some m -> forallb (fun p => p e) ps = selected f ns m | None => False end.
Proof.
  cbn. intros m Hm. unfold selected. destruct f as [f|], ns as [ns|]; cbn; rewrite ?andb_true_r; destruct e as [|? [|]| |]; try done; by injection Hm as ->.
Qed.
Lemma informer_subject evs : forall w, informer w evs -> forall e, In e evs -> exists m, subject e = Some m.
Proof.
  induction evs as [|e evs IH]; intros w HI e' Hin; [done|]. destruct Hin as [<-|Hin].
  - destruct e as [|[] []| |]; cbn in HI |- *; try done; by eexists.
  - destruct e as [|[] []| |]; cbn in HI; try done; [destruct HI as [_ HI]|destruct HI as (_ & _ & HI)|destruct HI as [_ HI]|]; by eapply IH.
Qed.
Lemma source_selects f ns evs : informer ∅ evs -> stable (selected f None) evs -> exists ps, source_predicates None f ns = Some ps
  /\ after (requests ps evs) = filter (fun xm => selected f ns xm.2 = true) (objects evs).
Proof.
  intros HI HS. destruct (source_predicates None f ns) as [ps|] eqn:E; [|done]. exists ps. split; [done|].
  rewrite <-(select_ok (selected f ns) evs).
  - unfold requests. f_equal. f_equal. apply List.filter_ext_in. intros e He. destruct (informer_subject evs ∅ HI e He) as [m Hm].
    pose proof (source_passes f ns e) as X. rewrite E in X. rewrite (X m Hm). cbn. rewrite andb_true_r. destruct e as [|? []| |]; cbn in Hm |- *; by simplify_eq.
  - apply selected_stripped.
  - done.
  - intros old m Hin. specialize (HS old m Hin). unfold selected in *. rewrite !andb_true_r in HS. rewrite HS. f_equal. destruct ns as [ns|]; [|done]. by eapply informer_namespace.
Qed.
Lemma source_delivers p F f ns : denotes p F -> exists ps, source_predicates (Some p) f ns = Some ps
  /\ forall e m, subject e = Some m -> forallb (fun q => q e) ps = true <-> holds e F /\ selected f ns m = true.
Proof.
  intros D. destruct (formula_spec p F D) as (g & Hg & HF). destruct (source_predicates None f ns) as [ps|] eqn:E; [|done].
  exists (g :: ps). split; [cbn in E |- *; rewrite Hg; cbn; by injection E as <-|]. intros e m Hm. cbn. rewrite andb_true_iff, HF.
  pose proof (source_passes f ns e) as X. rewrite E in X. by rewrite (X m Hm).
Qed.
