(** Proofs about the way of requests through the API server. *)
From Verif Require Import JsonModel JsonSpec JsonProofs ObjModel ObjProofs ValueModel ValueSpec GroupModel GroupSpec GroupProofs ZSetSpec PipelineSpec ViewModel ViewSpec
  ViewProofs ViewProofs2 WriterSpec WriterProofs StorageModel StorageSpec StorageProofs RegistryModel RegistrySpec RegistryProofs GateModel GateSpec StageNames.
From Verif Require AuthModel AuthSpec AuthProofs TokenModel TokenSpec TokenProofs.

(** *** The storages *)
Definition fit (x : gvk) : Prop := own_kind x /\ gvk_ok x.
Definition good (s : gmap gvr gvk) : Prop := forall k x, s !! k = Some x -> k = gvr_of x (lower (gvk_kind x)) /\ fit x.
Section storages.
Variable servable : gvk -> bool.
Lemma add_good l : (forall x, x ∈ l -> view_group_name (gvk_group x) -> fit x) -> forall s, good s -> good (add_storages servable s l).1.
Proof.
  induction l as [|x l IH]; intros F s H; [done|]. cbn. assert (F' : forall y, y ∈ l -> view_group_name (gvk_group y) -> fit y) by (intros y Hy; apply F; by right).
  destruct (find_resource x) as [r|] eqn:E; [|by apply IH]. destruct (servable x); [|done]. apply IH; [done|]. intros k y. destruct (decide (gvr_of x r = k)) as [<-|N].
  - rewrite lookup_insert. intros [= <-]. unfold find_resource in E. destruct (is_view_kind x) eqn:V; [|done]. injection E as <-. split; [done|]. apply F; [left|]. apply vgn.
    unfold is_view_kind, is_view_gv in V. by apply andb_true_iff in V as [V _].
  - rewrite lookup_insert_ne by done. apply H.
Qed.
Lemma remove_good l : forall s, good s -> good (remove_storages s l).
Proof.
  induction l as [|x l IH]; intros s H; [done|]. cbn. apply IH. destruct (find_resource x) as [r|]; [|done]. intros k y E. apply lookup_delete_Some in E as [_ E]. by apply H.
Qed.
Lemma register_good s g l : (forall x, x ∈ l -> view_group_name (gvk_group x) -> fit x) -> good (storage s) -> good (storage (register_group servable s g l).1).
Proof.
  intros F H. unfold register_group. destruct (is_view_group g); [|done]. cbn [negb]. destruct (add_types_to_scheme (scheme s) l) as [sch [|]]; [|done]. cbn [negb storage].
  assert (A := add_good l F (storage s) H). destruct (add_storages servable (storage s) l) as [st [|]]; [|done]. cbn [negb]. by destruct l.
Qed.
Lemma unregister_good s g : good (storage s) -> good (storage (unregister_group s g)).
Proof. intros H. unfold unregister_group. destruct (registered s !! g); [|done]. cbn. by apply remove_good. Qed.
Lemma rstep_good s r : (forall x, names r x -> fit x) -> good (storage s) -> good (storage (rstep servable s r).1).
Proof.
  intros F H. destruct r as [g l|g|o l|o l]; cbn [rstep].
  - apply register_good; [|done]. intros x Hx V. by apply F.
  - by apply unregister_good.
  - assert (F' : forall x, names (RegisterGVKs [] l) x -> fit x) by (intros x Hx; apply F, Hx). clear F. revert s H. induction o as [|g o IH]; intros s H; [done|]. cbn. assert (A : good (storage (register_group servable s g (of_group g l)).1)).
    { apply register_good; [|done]. intros x Hx V. apply F'. split; [done|]. rewrite in_group_of in Hx. by apply elem_in_group in Hx as [? _]. }
    destruct (register_group servable s g (of_group g l)) as [s' []]; cbn in *; [by apply IH|done..].
  - clear F. revert s H. induction o as [|g o IH]; intros s H; [done|]. cbn. apply IH. by apply unregister_good.
Qed.
End storages.

(** *** Paths *)
Lemma split_parts_plain s : Forall (fun p => has_slash p = false) (split_parts s).
Proof.
  induction s as [|c s IH]; [repeat constructor|]. cbn. case_decide as E; [by constructor|].
  destruct (split_parts s) as [|p ps]; [constructor; [|constructor]|]; [|apply Forall_cons in IH as [I1 I2]; constructor; [|done]]; rewrite has_slash_cons, bool_decide_eq_false_2 by done; done.
Qed.
Lemma split_path_plain s : Forall (fun p => has_slash p = false) (split_path s).
Proof. unfold split_path. destruct (drop_last_slashes (drop_slashes s)); [constructor|]. apply split_parts_plain. Qed.
Notation noslash := (Forall (fun p => has_slash p = false)).
Lemma scope_plain parts : noslash parts -> has_slash (scope_parts parts).1 = false /\ noslash (scope_parts parts).2.
Proof.
  intros F. unfold scope_parts. destruct parts as [|a [|ns rest]]; [done..|]. destruct (decide _); [|done].
  apply Forall_cons in F as F'. destruct F' as [_ F1]. apply Forall_cons in F1 as [F1 F2].
  destruct rest as [|sub rest]; [done|]. destruct (decide _); done.
Qed.
Lemma info_parts_plain h g v verb parts : noslash parts ->
  let i := info_parts h g v verb parts in
  has_slash (i_namespace i) = false /\ (i_verb i <> "list"%string -> i_verb i <> "watch"%string -> has_slash (i_name i) = false).
Proof.
  intros F i. subst i. unfold info_parts. destruct (scope_plain parts F) as [Hn Fp]. destruct (scope_parts parts) as [ns ps]. cbn [fst snd] in *.
  assert (N : has_slash (match ps with _ :: n :: _ => n | _ => EmptyString end) = false).
  { destruct ps as [|a [|n ps]]; [done..|]. apply Forall_cons in Fp as [_ Fp]. by apply Forall_cons in Fp as [? _]. }
  destruct (decide _); [cbn; split; [done|]; by destruct (h_watch h)|]. destruct (decide _); done.
Qed.
Lemma info_plain h i : request_info h = Some i ->
  has_slash (i_namespace i) = false /\ (i_verb i <> "list"%string -> i_verb i <> "watch"%string -> has_slash (i_name i) = false).
Proof.
  unfold request_info. pose proof (split_path_plain (h_path h)) as F.
  assert (X : forall g v parts, noslash parts ->
    match parts with
    | v0 :: rest => if decide (v0 = "watch"%string \/ v0 = "proxy"%string) then match rest with [] => None | _ => Some (info_parts h g v v0 rest) end
                    else Some (info_parts h g v (method_verb (h_method h)) parts)
    | [] => Some (no_resource h)
    end = Some i -> has_slash (i_namespace i) = false /\ (i_verb i <> "list"%string -> i_verb i <> "watch"%string -> has_slash (i_name i) = false)).
  { intros g v parts Fp. destruct parts as [|a rest]; [by intros [= <-]|]. destruct (decide _).
    - destruct rest; [done|]. intros [= <-]. apply info_parts_plain. by apply Forall_cons in Fp as [_ ?].
    - intros [= <-]. by apply info_parts_plain. }
  destruct (split_path (h_path h)) as [|pre [|a [|b rest]]]; [by intros [= <-]..|].
  apply Forall_cons in F as [_ F]. apply Forall_cons in F as [_ F]. apply Forall_cons in F as F'. destruct F' as [_ F'].
  destruct (decide (pre = _)); [exact (X EmptyString a (b :: rest) F)|]. destruct (decide (pre = _)); [|by intros [= <-]]. destruct rest as [|c rest]; [by intros [= <-]|]. exact (X a b (c :: rest) F').
Qed.

(** *** The call of the storage *)
Definition named (r : sreq) : option string :=
  match r with SGet _ n | SUpdate _ n _ _ _ _ _ | SDelete _ n _ _ => Some n | SCreate _ m _ _ => Some (get_name m) | _ => None end.
Lemma match_namespace_ok ns m m' : sendable m -> match_namespace ns m = Some m' -> sendable m' /\ get_namespace m' = ns /\ get_name m' = get_name m.
Proof.
  intros S. unfold match_namespace.
  assert (X : sendable (set_namespace m ns) /\ get_namespace (set_namespace m ns) = ns /\ get_name (set_namespace m ns) = get_name m).
  { assert (F := sendable_fine _ S). destruct S as (W & N & M). rewrite set_namespace_put. split_and!.
    - split_and!; [apply put_owf; [done|apply str_field_wf]|apply put_nnz; [done|done|apply str_field_nnz]|].
      unfold put_meta. destruct (str_field ns) as [v|]; [unfold nested_set'|]; cbn [nested_set nested_del]; destruct (mget m "metadata") as [[]|] eqn:E; try done; cbn [mbind option_bind default]; rewrite ?mget_set_eq, ?E; try done.
      all: unfold id; by rewrite mget_set_eq.
    - unfold get_namespace. rewrite meta_str, put_meta_get by done. rewrite decide_True by done. by rewrite str_field_str.
    - unfold get_name. rewrite !meta_str, put_meta_get by done. by rewrite decide_False. }
  destruct (decide _) as [<-|]; [by intros [= <-]|]. destruct (decide _); [by intros [= <-]|]. destruct (decide _) as [->|]; [by intros [= <-]|done].
Qed.

(** What the handlers make of a request. *)
Record call_as (i : rinfo) (r : sreq) : Prop := {
  ca_ns : req_ns r = i_namespace i;
  ca_ok : request_ok r;
  ca_name : forall n, named r = Some n -> i_verb i = "create"%string \/ n = i_name i;
  ca_coll : named r = None -> i_verb i = "list"%string \/ i_verb i = "deletecollection"%string;
  ca_write : (forall hash w x, (ideal_serve hash w x r).1 = w) \/ i_verb i ∈ writing }.
Lemma name_fits_spec ns name m : name_fits ns name m = true -> get_name m = name /\ name <> EmptyString.
Proof. unfold name_fits. rewrite !andb_true_iff, negb_true_iff, String.eqb_eq, String.eqb_neq. intros ((H1 & H2) & _). by subst. Qed.
Lemma handler_call h i r : http_ok h -> request_info h = Some i -> handler i h = CallStorage r -> call_as i r.
Proof.
  intros [B P] I H. destruct (info_plain h i I) as [Ns Nn]. unfold handler in H.
  destruct (decide (i_verb i = "get"%string)) as [E|_].
  { injection H as <-. split; cbn; try done; [|by intros n [= <-]; right|by left]. split; [done|]. apply Nn; by rewrite E. }
  destruct (decide (i_verb i = "list"%string \/ i_verb i = "watch"%string)) as [E|E1].
  { destruct (h_query h) as [y|]; [|done]. destruct (list_fields (i_name i) y) as [f|]; [|done]. destruct (decide (i_verb i = _)) as [E'|N]; [done|]. injection H as <-.
    split; cbn; try done; [|by left]. intros _. destruct E; [by left|done]. }
  assert (Nn' : has_slash (i_name i) = false) by (apply Nn; naive_solver).
  destruct (decide (i_verb i = "create"%string)) as [E|_].
  { destruct (h_body h) as [b|] eqn:Eb; [|done]. cbn in H. destruct (match_namespace (i_namespace i) b) as [m|] eqn:Em; [|done]. injection H as <-.
    destruct (B b eq_refl) as [B1 B2]. destruct (match_namespace_ok _ _ _ B1 Em) as (M1 & M2 & M3). split; cbn; try done; [split; [done|]; split; cbn; [done|by rewrite M3]|by left|].
    right. rewrite E. by apply elem_of_list_In; cbn; auto 10. }
  destruct (decide (i_verb i = "update"%string)) as [E|_].
  { destruct (h_body h) as [b|] eqn:Eb; [|done]. cbn in H. destruct (match_namespace (i_namespace i) b) as [m|] eqn:Em; [|done]. destruct (name_fits _ _ m) eqn:Nf; [|done]. injection H as <-.
    destruct (B b eq_refl) as [B1 B2]. destruct (match_namespace_ok _ _ _ B1 Em) as (M1 & M2 & M3). apply name_fits_spec in Nf as [Nf _]. split; cbn; try done.
    - split; [done|]. intros cur m' _ [= <-]. split; [done|]. unfold obj_id. by rewrite M2, Nf.
    - intros n [= <-]. by right.
    - right. rewrite E. by apply elem_of_list_In; cbn; auto 10. }
  destruct (decide (i_verb i = "patch"%string)) as [E|_].
  { destruct (decide _); [done|]. injection H as <-. split; cbn; try done.
    - split; [done|]. intros cur m Hc Em. apply bind_Some in Em as (m0 & Em & Nf). destruct (name_fits _ _ m0) eqn:Ef; [|done]. injection Nf as <-.
      destruct (P i cur m0 I Hc Em) as [P1 P2]. apply name_fits_spec in Ef as [Ef _]. split; [done|]. unfold obj_id. by rewrite P2, Ef.
    - intros n' [= <-]. by right.
    - right. rewrite E. by apply elem_of_list_In; cbn; auto 10. }
  destruct (decide (i_verb i = "delete"%string)) as [E|_].
  { injection H as <-. split; cbn; try done; [by intros n [= <-]; right|]. right. rewrite E. by apply elem_of_list_In; cbn; auto 10. }
  destruct (decide (i_verb i = "deletecollection"%string)) as [E|_]; [|done].
  destruct (h_query h) as [y|]; [|done]. injection H as <-. split; cbn; try done; [by right|]. right. rewrite E. by apply elem_of_list_In; cbn; auto 10.
Qed.
(** Requests that name an object change and show no other. *)
Lemma ideal_named hash w x r y i n : request_ok r -> sound w -> named r = Some n -> i.2 <> n -> (ideal_serve hash w x r).1 !! (y, i) = w !! (y, i).
Proof.
  intros R K N D. destruct r as [[ns|] name|ns labels fields|[ns|] m v o|[ns|] name upd vn v force o|[ns|] name v o|ns v labels fields o]; cbn [ideal_serve]; try done; injection N as <-.
  - unfold ideal_create. destruct (v m); [|done]. cbn. rewrite lookup_insert_ne; [done|]. intros E. apply D. injection E as _ <-. done.
  - unfold ideal_create. by destruct (v m).
  - destruct R as [_ R]. destruct (w !! (x, (ns, name))) as [cur|] eqn:E.
    + destruct (upd (Some cur)) as [m|]; [|done]. destruct (v m cur); [|done]. cbn. rewrite lookup_insert_ne; [done|]. intros E'. apply D. injection E' as _ <-. done.
    + destruct force; [|done]. destruct (upd None) as [m|] eqn:Eu; [|done]. apply (R None m I) in Eu as [_ Eu]. unfold ideal_create. destruct (vn m); [|done]. cbn.
      rewrite lookup_insert_ne; [done|]. intros E'. apply D. injection E' as _ <-. cbn. unfold obj_id in Eu. injection Eu as _ Eu. done.
  - destruct (w !! (x, (ns, name))) as [cur|]; [|done]. destruct (v cur); [|done]. cbn. rewrite lookup_delete_ne; [done|]. intros E'. apply D. injection E' as _ <-. done.
Qed.
Lemma shown_named hash w x r q m n : request_ok r -> sound w -> named r = Some n -> as_expected q (ideal_serve hash w x r).2 -> In m (shown q) -> get_name m = n.
Proof.
  intros R K N A Hm.
  assert (C : forall ns o v n, sendable o -> get_name o = n -> as_expected q (ideal_create hash w x (Some ns) o v).2 -> get_name m = n).
  { intros ns o v n' S <- A'. unfold ideal_create in A'. destruct (v o); cbn in A'; subst q; [|done]. destruct Hm as [<-|[]]. exact (f_equal snd (placed_id x ns o S)). }
  destruct r as [[ns|] name|ns labels fields|[ns|] o v op|[ns|] name upd vn v force op|[ns|] name v op|ns v labels fields op]; cbn [ideal_serve] in A; try done; injection N as N; try (cbn in A; subst q; by destruct Hm).
  - subst n. cbn in A. subst q. destruct (w !! (x, (ns, name))) as [o|] eqn:E; [|done]. destruct Hm as [<-|[]]. apply K in E as [(_ & _ & E) _]. exact (f_equal snd E).
  - destruct R as [R _]. by eapply C.
  - unfold ideal_create in A. destruct (v o); cbn in A; subst q; by destruct Hm.
  - subst name. destruct R as [_ R]. destruct (w !! (x, (ns, n))) as [cur|] eqn:E.
    + destruct (upd (Some cur)) as [o|] eqn:Eu; [|cbn in A; subst q; by destruct Hm]. destruct (v o cur); cbn in A; subst q; [|by destruct Hm]. destruct Hm as [<-|[]].
      apply K in E as [E _]. apply R in Eu as [_ Eu]; [|done]. assert (E' := set_gvk_id o x). rewrite Eu in E'. exact (f_equal snd E').
    + destruct force; [|cbn in A; subst q; by destruct Hm]. destruct (upd None) as [o|] eqn:Eu; [|cbn in A; subst q; by destruct Hm].
      apply (R None o I) in Eu as [S Eu]. apply (C ns o vn n S); [exact (f_equal snd Eu)|done].
  - subst name. destruct (w !! (x, (ns, n))) as [o|] eqn:E; [|cbn in A; subst q; by destruct Hm]. destruct (v o); cbn in A; subst q; [|by destruct Hm]. destruct Hm as [<-|[]].
    apply K in E as [(_ & _ & E) _]. exact (f_equal snd E).
Qed.

(** *** Histories *)
Lemma handler_watch h i sel : handler i h = CallWatch sel -> i_verb i = "watch"%string /\ sel_ns sel = i_namespace i.
Proof.
  unfold handler. destruct (decide (i_verb i = _)); [done|]. destruct (decide _).
  { destruct (h_query h) as [y|]; [|done]. destruct (list_fields _ y); [|done]. destruct (decide _); [|done]. by intros [= <-]. }
  destruct (decide _); [by destruct (_ ≫= _)|]. destruct (decide _). { destruct (_ ≫= _); [|done]. by destruct (name_fits _ _ _). }
  destruct (decide _); [by destruct (decide _)|]. destruct (decide _); [done|]. destruct (decide _); [by destruct (h_query h)|done].
Qed.
Lemma handler_none h i e : handler i h = CallNone e -> e = H400 \/ e = H405.
Proof.
  unfold handler. destruct (decide (i_verb i = _)); [done|]. destruct (decide _).
  { destruct (h_query h) as [y|]; [|intros [= <-]; auto]. destruct (list_fields _ y); [|intros [= <-]; auto]. by destruct (decide _). }
  destruct (decide _); [destruct (_ ≫= _); [done|intros [= <-]; auto]|]. destruct (decide _). { destruct (_ ≫= _); [|intros [= <-]; auto]. destruct (name_fits _ _ _); [done|intros [= <-]; auto]. }
  destruct (decide _); [destruct (decide _); [intros [= <-]; auto|done]|]. destruct (decide _); [done|]. destruct (decide _); [destruct (h_query h); [done|]|]; intros [= <-]; auto.
Qed.

Section history.
Context `{J : TokenModel.Jwt}.
Variable hash : string -> string.
Variable lister : store -> list jobj.
Hypothesis L : lists_all lister.

Lemma serve_http_handle s q x v : good (storage s) -> serve_http s q = Handle x v -> q_group q = gvk_group x /\ q_version q = gvk_version x /\ q_resource q = lower (gvk_kind x) /\ q_sub q = EmptyString /\ fit x.
Proof.
  intros G. unfold serve_http. destruct (is_view_group (q_group q)); [|done]. cbn [negb]. destruct (storage s !! _) as [y|] eqn:E; [|done]. destruct (decide _) as [|Es]; [done|]. destruct (decide _); [|done].
  intros [= <- _]. apply G in E as [E F]. injection E as -> -> ->. split_and!; try done. by destruct (decide (q_sub q = EmptyString)).
Qed.
Inductive dispatched (s : apiserver) (c : caches) (w : world) (i : rinfo) (h : http) : caches * list (gvk * wevent) * hreply -> Prop :=
  | dis_none reply : (forall p, reply <> HStorage p) -> (forall x sel, reply <> HWatch x sel) -> dispatched s c w i h (c, [], reply)
  | dis_watch x sel : i_resource_request i = true -> i_group i = gvk_group x -> i_resource i = lower (gvk_kind x) -> i_verb i = "watch"%string -> sel_ns sel = i_namespace i -> dispatched s c w i h (c, [], HWatch x sel)
  | dis_call x r c' es p w' e : i_resource_request i = true -> i_group i = gvk_group x -> i_resource i = lower (gvk_kind x) -> fit x -> call_as i r ->
      ideal_serve hash w x r = (w', e) -> sim hash c' w' -> as_expected p e -> tells w es w' -> dispatched s c w i h (c', es, HStorage p).
Lemma dispatch_spec s c w i h : good (storage s) -> sim hash c w -> http_ok h -> request_info h = Some i -> dispatched s c w i h (dispatch hash lister s c i h).
Proof.
  intros G S O I. unfold dispatch. destruct (_ || _) eqn:B; [by apply dis_none|]. apply orb_false_iff in B as [_ B]. apply negb_false_iff in B.
  destruct (serve_http s _) as [|x v| |] eqn:E; [by apply dis_none| |by apply dis_none..]. apply serve_http_handle in E as (E1 & E2 & E3 & E4 & E5); [|done]. cbn in *.
  destruct (handler i h) as [r|sel|e] eqn:H.
  - assert (C := handler_call h i r O I H). destruct E5 as [F1 F2]. assert (T := serve_sim hash lister L x F1 F2 c w r S (ca_ok _ _ C)).
    destruct (serve hash lister x true c r) as [[c' es] p]. destruct (ideal_serve hash w x r) as [w' e] eqn:Ei. destruct T as (T1 & T2 & T3). by eapply dis_call.
  - apply handler_watch in H as [H1 H2]. by apply dis_watch.
  - apply handler_none in H as [-> | ->]; by apply dis_none.
Qed.
Lemma gate_inv servable auth es : Forall event_ok es -> good (storage (grun hash lister servable auth es).1) /\ exists w, sim hash (grun hash lister servable auth es).2 w.
Proof.
  intros F. unfold grun. assert (X : forall st, good (storage st.1) -> (exists w, sim hash st.2 w) -> good (storage (fold_left (gstep hash lister servable auth) es st).1) /\ exists w, sim hash (fold_left (gstep hash lister servable auth) es st).2 w).
  { induction es as [|e es IH]; intros st G (w & S); [eauto|]. apply Forall_cons in F as [F1 F2]. cbn. apply IH; [done| |]; destruct e as [r|now h|o]; cbn [gstep fst snd] in *; try done.
    - by apply rstep_good.
    - eauto.
    - unfold gate. destruct (request_info h) as [i|] eqn:I; [|eauto]. assert (D : exists w', sim hash (dispatch hash lister st.1 st.2 i h).1.1 w').
      { assert (D := dispatch_spec st.1 st.2 w i h G S F1 I). destruct D; cbn; eauto. }
      destruct auth as [p|]; [|done]. destruct (TokenModel.authenticate p now (h_auth h)) as [| |n u]; [eauto..|]. destruct (AuthModel.authorize _ _); [done|eauto].
    - assert (A := vstep_sim hash lister L st.2 w o S F1). unfold follows in A. destruct (vstep hash lister st.2 o) as [[c' evs] r]. destruct (ideal_step hash w o) as [w' r']. destruct A as (A & _). cbn. eauto. }
  apply X; [done|]. exists ∅. apply sim_empty.
Qed.
End history.

(** *** URLs *)
Lemma no_slash_char c s : has_slash (String c s) = false -> c <> slash /\ has_slash s = false.
Proof. rewrite has_slash_cons. intros H. apply orb_false_iff in H as [H1 H2]. split; [|done]. by apply bool_decide_eq_false in H1. Qed.
Lemma drop_slashes_id s : has_slash s = false -> drop_slashes s = s.
Proof. destruct s as [|c s]; [done|]. intros H. apply no_slash_char in H as [H _]. cbn. by rewrite decide_False. Qed.
Lemma drop_last_id s : has_slash s = false -> drop_last_slashes s = s.
Proof.
  induction s as [|c s IH]; [done|]. intros H. apply no_slash_char in H as [H1 H2]. cbn. rewrite IH by done. destruct s; [|done]. by rewrite decide_False.
Qed.
Lemma drop_last_app a b : drop_last_slashes b <> EmptyString -> drop_last_slashes (a +:+ b) = (a +:+ drop_last_slashes b)%string.
Proof.
  intros H. induction a as [|c a IH]; [done|]. change (drop_last_slashes (String c (a +:+ b)) = String c (a +:+ drop_last_slashes b)). cbn [drop_last_slashes]. rewrite IH.
  destruct (a +:+ drop_last_slashes b)%string eqn:E; [|done]. destruct a; [|done]. change (drop_last_slashes b = EmptyString) in E. by rewrite E in H.
Qed.
Lemma split_parts_one s : has_slash s = false -> split_parts s = [s].
Proof. induction s as [|c s IH]; [done|]. intros H. apply no_slash_char in H as [H1 H2]. cbn. rewrite decide_False by done. by rewrite IH. Qed.
Lemma split_parts_app s t : has_slash s = false -> split_parts (s +:+ String slash t) = s :: split_parts t.
Proof.
  induction s as [|c s IH]; [done|]. intros H. apply no_slash_char in H as [H1 H2]. change (split_parts (String c (s +:+ String slash t)) = String c s :: split_parts t). cbn [split_parts].
  rewrite decide_False by done. by rewrite IH.
Qed.
Lemma concat_cons a b l : String.concat "/" (a :: b :: l) = (a +:+ String slash (String.concat "/" (b :: l)))%string.
Proof. done. Qed.
Lemma split_url parts : parts <> [] -> Forall part parts -> split_path (url parts) = parts.
Proof.
  intros N F. unfold split_path, url.
  assert (A : drop_last_slashes (String.concat "/" parts) = String.concat "/" parts /\ String.concat "/" parts <> EmptyString /\ split_parts (String.concat "/" parts) = parts).
  { induction parts as [|a [|b l] IH]; [done| |].
    - apply Forall_cons in F as [[F1 F2] _]. cbn. split_and!; [by apply drop_last_id|done|by apply split_parts_one].
    - apply Forall_cons in F as [[F1 F2] F]. destruct IH as (I1 & I2 & I3); [done..|]. rewrite concat_cons. split_and!.
      + change (String slash ?s) with ("/" +:+ s)%string. rewrite drop_last_app.
        * rewrite drop_last_app by (by rewrite I1). by rewrite I1.
        * rewrite drop_last_app by (by rewrite I1). done.
      + by destruct a.
      + rewrite split_parts_app by done. by rewrite I3. }
  assert (B : drop_slashes ("/" +:+ String.concat "/" parts) = String.concat "/" parts).
  { change (drop_slashes (String slash (String.concat "/" parts)) = String.concat "/" parts). cbn [drop_slashes]. rewrite decide_True by done. destruct parts as [|a l]; [done|]. apply Forall_cons in F as [[F1 F2] _]. destruct a as [|c a]; [done|].
    apply no_slash_char in F2 as [F2 _]. destruct l; [cbn; by rewrite decide_False|]. rewrite concat_cons. change (String c a +:+ ?t)%string with (String c (a +:+ t)). cbn [drop_slashes]. by rewrite decide_False. }
  rewrite B. destruct A as (-> & A2 & A3). by destruct (String.concat "/" parts).
Qed.
Lemma asks_verb m w n v : asks m w n v ->
  (n = true /\ v = method_verb m /\ v <> EmptyString) \/ (n = false /\ v = (if decide (method_verb m = "get") then if w then "watch" else "list" else if decide (method_verb m = "delete") then "deletecollection" else method_verb m)%string).
Proof. intros H. destruct H as [m w [-> | ->]|m [-> | ->]|m [-> | ->]| | | | |]; cbn; auto. Qed.
Definition query_name (h : http) : string := match h_query h with Some y => default EmptyString (y_name y) | None => EmptyString end.
Lemma scope_home x ns rest : url_kind x ns -> scope_parts ((if decide (ns = EmptyString) then [] else ["namespaces"%string; ns]) ++ lower (gvk_kind x) :: rest) = (ns, lower (gvk_kind x) :: rest).
Proof.
  intros (_ & _ & _ & _ & N). destruct (decide (ns = EmptyString)) as [->|H]; cbn.
  - destruct rest; [done|]. rewrite decide_False; [done|]. intros E. apply N. rewrite E. by apply elem_of_list_In; cbn; auto.
  - rewrite decide_True by done. rewrite decide_False; [done|]. intros [E|E]; apply N; rewrite E; by apply elem_of_list_In; cbn; auto.
Qed.
Lemma info_home h x ns rest : url_kind x ns -> Forall part rest -> h_path h = url (home x ns ++ rest) ->
  request_info h = Some (info_parts h (gvk_group x) (gvk_version x) (method_verb (h_method h)) ((if decide (ns = EmptyString) then [] else ["namespaces"%string; ns]) ++ lower (gvk_kind x) :: rest)).
Proof.
  intros U F E. unfold request_info. rewrite E, split_url.
  - destruct U as (U1 & U2 & U3 & U4 & U5). unfold home. destruct (decide (ns = EmptyString)); cbn; (rewrite decide_False by done); (rewrite decide_True by done).
    + rewrite decide_False; [done|]. intros [E'|E']; apply U5; rewrite E'; by apply elem_of_list_In; cbn; auto.
    + by rewrite decide_False by (by intros []).
  - done.
  - destruct U as (U1 & U2 & U3 & U4 & U5). apply Forall_app. split; [|done]. unfold home. repeat (apply Forall_cons; split; [done|]). apply Forall_app. split; [|by constructor].
    destruct (decide (ns = EmptyString)); [constructor|]. destruct U4; [done|]. repeat (apply Forall_cons; split; [done|]). constructor.
Qed.
Lemma info_one h x ns name verb : url_kind x ns -> part name -> h_path h = url (home x ns ++ [name]) -> asks (h_method h) (h_watch h) true verb ->
  request_info h = Some (RInfo true verb (gvk_group x) (gvk_version x) ns (lower (gvk_kind x)) "" name).
Proof.
  intros U P E A. rewrite (info_home h x ns [name]); [|done|by constructor|done]. unfold info_parts. rewrite scope_home by done.
  apply asks_verb in A as [(_ & -> & _)|[? _]]; [|done]. destruct P. rewrite decide_False by naive_solver. by rewrite decide_False by naive_solver.
Qed.
Lemma info_all h x ns verb : url_kind x ns -> h_path h = url (home x ns) -> asks (h_method h) (h_watch h) false verb ->
  request_info h = Some (RInfo true verb (gvk_group x) (gvk_version x) ns (lower (gvk_kind x)) "" (if decide (verb = "list" \/ verb = "watch")%string then query_name h else EmptyString)).
Proof.
  intros U E A. rewrite (info_home h x ns []); [|done|constructor|by rewrite app_nil_r]. unfold info_parts. rewrite scope_home by done. unfold query_name.
  apply asks_verb in A as [(? & _)|[_ ->]]; [done|]. destruct (decide (method_verb (h_method h) = "get"%string)) as [Eg|Ng].
  - rewrite decide_True by done. destruct (h_watch h); done.
  - rewrite decide_False by naive_solver. destruct (decide (method_verb (h_method h) = "delete"%string)) as [Ed|Nd].
    + by rewrite decide_True.
    + rewrite decide_False by naive_solver. destruct (decide (method_verb (h_method h) = "list"%string \/ _)) as [El|]; [|done]. exfalso. unfold method_verb in El. by repeat case_decide; destruct El.
Qed.

(** *** Decisions *)
Lemma collection_permits rules verb g r n n' : AuthSpec.on_collection verb -> AuthSpec.permits rules verb g r n -> AuthSpec.permits rules verb g r n'.
Proof. intros C [->|(ru & H1 & H2 & H3 & H4 & _)]; [by left|]. right. exists ru. split; [done|]. split_and!; try done. by left. Qed.
Lemma admits_all nss ns : AuthSpec.admits nss EmptyString -> AuthSpec.admits nss ns.
Proof. intros [H|[H|[H _]]]; [by left|by right; left|done]. Qed.
Section decisions.
Context `{J : TokenModel.Jwt}.
Hypothesis LJ : TokenSpec.jwt_laws.
Variable hash : string -> string.
Variable lister : store -> list jobj.
Definition may_do (cl : TokenModel.token_claims) (i : rinfo) : Prop :=
  AuthSpec.admits (TokenModel.tc_namespaces cl) (i_namespace i) /\ AuthSpec.permits (TokenModel.tc_rules cl) (i_verb i) (i_group i) (i_resource i) (i_name i).
Lemma bears_fun p now h c c' : bears p now h c -> bears p now h c' -> c = c'.
Proof.
  intros (t & E & alg & R & _) (t' & E' & alg' & R' & _). rewrite E in E'. apply (f_equal (TokenModel.drop_prefix "Bearer ")) in E'. rewrite !TokenProofs.drop_prefix_app in E'. subst t'. rewrite R in R'. by injection R' as _ <-.
Qed.
Lemma known_iff p now h i : request_info h = Some i ->
  (TokenModel.authenticate p now (h_auth h) = TokenModel.NoToken \/ TokenModel.authenticate p now (h_auth h) = TokenModel.BadToken) /\ (forall cl, ~ bears p now h cl)
  \/ exists n u cl, TokenModel.authenticate p now (h_auth h) = TokenModel.Known n u /\ bears p now h cl
     /\ (AuthModel.authorize TokenModel.rules_read (attributes u i) = true <-> (i_resource_request i = true -> may_do cl i)).
Proof.
  intros I. destruct (TokenModel.authenticate p now (h_auth h)) as [| |n u] eqn:A.
  - left. split; [by left|]. intros cl (t & E & H). assert (Q := TokenProofs.authenticate_spec p now (h_auth h) (TokenModel.tc_user cl) (AuthModel.user_of_claims TokenModel.rules_text (TokenModel.claims_of cl))).
    rewrite A in Q. destruct Q as [_ Q]. discriminate Q. by exists t, cl.
  - left. split; [by right|]. intros cl (t & E & H). assert (Q := TokenProofs.authenticate_spec p now (h_auth h) (TokenModel.tc_user cl) (AuthModel.user_of_claims TokenModel.rules_text (TokenModel.claims_of cl))).
    rewrite A in Q. destruct Q as [_ Q]. discriminate Q. by exists t, cl.
  - right. destruct (TokenProofs.known_rights LJ p now (h_auth h) n u A) as (t & cl & H1 & H2 & -> & H3). exists (TokenModel.tc_user cl), u, cl. split; [done|]. split; [by exists t|].
    unfold attributes. destruct (i_resource_request i) eqn:R.
    + assert (H3' := H3 (i_verb i) (i_group i) (i_resource i) (i_sub i) (i_name i) (i_namespace i)). unfold may_do. split; [intros H _; by apply H3'|intros H; by apply H3', H].
    + rewrite AuthProofs.authorize_spec. cbn. split; [done|]. intros _. by exists u.
Qed.
Lemma gate_cases p now s c h : 
  (request_info h = None /\ gate hash lister (Some p) now s c h = (c, [], H500))
  \/ exists i, request_info h = Some i
     /\ (((forall cl, ~ bears p now h cl) /\ gate hash lister (Some p) now s c h = (c, [], H401))
         \/ exists cl, bears p now h cl
            /\ ((i_resource_request i = true /\ ~ may_do cl i /\ gate hash lister (Some p) now s c h = (c, [], H403))
                \/ ((i_resource_request i = true -> may_do cl i) /\ gate hash lister (Some p) now s c h = dispatch hash lister s c i h))).
Proof.
  unfold gate. destruct (request_info h) as [i|] eqn:I; [|by left]. right. exists i. split; [done|].
  destruct (known_iff p now h i I) as [[[-> | ->] N]|(n & u & cl & -> & B & D)]; [by left..|]. right. exists cl. split; [done|].
  destruct (AuthModel.authorize _ _) eqn:A.
  - right. split; [|done]. by apply D.
  - left. assert (X : ~ (i_resource_request i = true -> may_do cl i)). { intros H. apply D in H. done. }
    destruct (i_resource_request i); [|by destruct X]. split; [done|]. split; [|done]. intros H. by apply X.
Qed.
End decisions.
