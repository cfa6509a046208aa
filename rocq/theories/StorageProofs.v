(** Proofs about the storage of the API server. *)
From Verif Require Import JsonModel JsonSpec JsonProofs ObjModel ObjProofs ValueModel ValueSpec GroupModel GroupSpec GroupProofs ZSetSpec PipelineSpec ViewModel ViewSpec
  ViewProofs ViewProofs2 WriterSpec WriterProofs StorageModel StorageSpec.

Lemma set_gvk_id m x : obj_id (set_gvk m x) = obj_id m.
Proof. apply meta_eq_id; by rewrite set_gvk_meta. Qed.
Lemma set_gvk_nnz m x : owf m -> nonegzero (JMap m) -> nonegzero (JMap (set_gvk m x)).
Proof.
  intros W N. unfold set_gvk, set_kind, set_api_version. apply nnz_set; [apply ksorted_set; by apply owf_sorted| |constructor]. apply nnz_set; [by apply owf_sorted|done|constructor].
Qed.
Lemma sendable_fine m : sendable m -> meta_fine m.
Proof. intros (_ & _ & H). unfold meta_fine. by destruct (mget m "metadata") as [[]|]. Qed.
Lemma placed_meta x ns m f : sendable m -> meta (placed x ns m) f = if decide (f = "namespace"%string) then str_field ns else meta m f.
Proof.
  intros S. assert (F := sendable_fine _ S). destruct S as (W & _). unfold placed. rewrite set_namespace_put, put_meta_get; [|by apply set_gvk_owf|by apply set_gvk_fine].
  case_decide; [done|]. apply set_gvk_meta.
Qed.
Lemma placed_id x ns m : sendable m -> obj_id (placed x ns m) = (ns, get_name m).
Proof.
  intros S. unfold obj_id, get_namespace, get_name. rewrite !meta_str, !placed_meta by done. rewrite decide_True, decide_False by done. by rewrite str_field_str.
Qed.
Lemma placed_is x ns m : gvk_is (placed x ns m) x.
Proof. unfold placed. rewrite set_namespace_put. split; rewrite put_get by done; apply set_gvk_is. Qed.
Lemma placed_get x ns m k : k <> "metadata"%string -> k <> "apiVersion"%string -> k <> "kind"%string -> mget (placed x ns m) k = mget m k.
Proof. intros N1 N2 N3. unfold placed. rewrite set_namespace_put, put_get by done. by apply mget_set_gvk_ne. Qed.
Lemma placed_owf x ns m : owf m -> owf (placed x ns m).
Proof. intros W. unfold placed. rewrite set_namespace_put. apply put_owf; [by apply set_gvk_owf|apply str_field_wf]. Qed.
Lemma placed_nnz x ns m : owf m -> nonegzero (JMap m) -> nonegzero (JMap (placed x ns m)).
Proof. intros W N. unfold placed. rewrite set_namespace_put. apply put_nnz; [by apply set_gvk_owf|by apply set_gvk_nnz|apply str_field_nnz]. Qed.

Definition sound (w : world) : Prop := forall y i m, w !! (y, i) = Some m -> stored_as i (Some m) /\ get_gvk m = y.
Lemma sim_sound hash c w : sim hash c w -> sound w.
Proof.
  intros H y i m E. destruct (sim_w _ _ _ H _ _ _ E) as [E1 E2]. destruct (sim_c _ _ _ H _ _ _ E1) as [[] _]. injection E2 as _ E2. done.
Qed.
Lemma stored_world hash c w y i m : sim hash c w -> w !! (y, i) = Some m -> stored_as i (Some m).
Proof. intros H E. by apply (sim_sound _ _ _ H) in E as [? _]. Qed.

Section proofs.
Variable hash : string -> string.
Variable lister : store -> list jobj.
Hypothesis L : lists_all lister.
Notation sim := (sim hash).
Notation stamp := (stamp hash).
Variable x : gvk.
Hypothesis O : own_kind x.
Hypothesis G : gvk_ok x.

Lemma x_view : is_view_kind x = true.
Proof. by apply own_view. Qed.
Lemma placed_gvk ns m : get_gvk (placed x ns m) = x.
Proof. apply gvk_is_get; [done|apply placed_is]. Qed.
Lemma set_gvk_gvk m : get_gvk (set_gvk m x) = x.
Proof. apply gvk_is_get; [done|apply set_gvk_is]. Qed.

Lemma st_get_sim c w ns name : sim c w -> plain (ns, name) ->
  st_get x true c (Some ns) name = match w !! (x, (ns, name)) with Some m => SObject m | None => SNotFound end.
Proof. intros H Hp. unfold st_get, st_key. cbn. by rewrite (vc_get_sim hash c w x ns name H x_view Hp). Qed.

Definition serves (w : world) (out : caches * list (gvk * wevent) * sreply) (ideal : world * expected) : Prop :=
  sim out.1.1 ideal.1 /\ as_expected out.2 ideal.2 /\ tells w out.1.2 ideal.1.
Lemma serves_same c w r : sim c w -> serves w (c, [], r) (w, Exactly r).
Proof. intros H. split; [done|]. split; [done|]. apply tells_nil. Qed.

Lemma st_create_sim c w ns m valid o : sim c w -> sendable m -> plain (default EmptyString ns, get_name m) ->
  serves w (st_create hash x true c ns m valid o) (ideal_create hash w x ns m valid).
Proof.
  intros H S Hp. unfold st_create, ideal_create. destruct (valid m); [|by apply serves_same]. destruct ns as [ns|]; [|by apply serves_same].
  cbn [fmap option_fmap option_map default] in *. fold (placed x ns m).
  assert (W : writable (placed x ns m)). { destruct S as (S1 & S2 & S3). split_and!; [by apply placed_owf|by apply placed_nnz|]. rewrite placed_id by done. done. }
  assert (A := vc_add_sim hash c w (placed x ns m) H W). unfold follows, ideal_step in A. rewrite placed_gvk, x_view in A. unfold source_id in A. rewrite placed_gvk, placed_id in A by done.
  destruct (vc_add hash c (placed x ns m)) as [[c' es] r]. cbn in A. destruct A as (A1 & -> & A2). split; [done|]. done.
Qed.

Lemma st_update_sim c w ns name upd vn v force o : sim c w -> request_ok (SUpdate ns name upd vn v force o) ->
  serves w (st_update hash x true c ns name upd vn v force o) (ideal_serve hash w x (SUpdate ns name upd vn v force o)).
Proof.
  intros H [Hp Hu]. destruct ns as [ns|]; [|by apply serves_same]. cbn [default] in *. unfold st_update. rewrite (st_get_sim c w) by done. cbn [ideal_serve].
  destruct (w !! (x, (ns, name))) as [cur|] eqn:E.
  - destruct (upd (Some cur)) as [m|] eqn:Eu; [|by apply serves_same]. destruct (v m cur); [|by apply serves_same].
    destruct (Hu (Some cur) m (stored_world _ _ _ _ _ _ H E) Eu) as [S I]. assert (W : writable (set_gvk m x)). { destruct S as (S1 & S2 & S3). split_and!; [by apply set_gvk_owf|by apply set_gvk_nnz|]. rewrite set_gvk_id, I. done. }
    assert (Es : source_id (set_gvk m x) = (x, (ns, name))) by (unfold source_id; by rewrite set_gvk_gvk, set_gvk_id, I).
    assert (A := vstep_sim hash lister L c w (VUpdate (set_gvk m x)) H). unfold follows in A. cbn [vstep ideal_step] in A. rewrite Es, E in A.
    destruct A as (A1 & A2 & A3); [split; [done|]; by rewrite set_gvk_gvk|].
    destruct (cl_update hash c (set_gvk m x)) as [[c' es] r]. cbn in A1, A2, A3. subst r. done.
  - destruct force; [|by apply serves_same]. destruct (upd None) as [m|] eqn:Eu; [|by apply serves_same]. destruct (Hu None m I Eu) as [S I'].
    apply st_create_sim; [done..|]. cbn. unfold obj_id in I'. injection I' as I1 I2. by rewrite I2.
Qed.

Lemma st_delete_sim c w ns name v o : sim c w -> request_ok (SDelete ns name v o) ->
  serves w (st_delete x true c ns name v o) (ideal_serve hash w x (SDelete ns name v o)).
Proof.
  intros H Hp. destruct ns as [ns|]; [|by apply serves_same]. cbn [request_ok default] in *. unfold st_delete. rewrite (st_get_sim c w) by done. cbn [ideal_serve].
  destruct (w !! (x, (ns, name))) as [m|] eqn:E; [|by apply serves_same]. destruct (v m); [|by apply serves_same].
  destruct (sim_w _ _ _ H _ _ _ E) as [_ Es]. assert (A := vc_delete_sim hash c w m H). unfold follows in A. cbn [ideal_step] in A. rewrite Es, E in A.
  assert (Eg : get_gvk m = x) by exact (f_equal fst Es). assert (Ei : obj_id m = (ns, name)) by exact (f_equal snd Es). rewrite Eg, x_view in A.
  destruct A as (A1 & A2 & A3); [by rewrite Ei|]. destruct (vc_delete c m) as [[c' es] r]. cbn in A1, A2, A3. subst r. done.
Qed.

Lemma list_kind : object_gvk (st_list_kind x) = x.
Proof.
  unfold object_gvk, st_list_kind. assert (V := x_view). unfold is_view_kind in *. cbn [gvk_group gvk_version gvk_kind]. rewrite V. cbn [andb].
  rewrite has_suffix_app. unfold trim_suffix. rewrite has_suffix_app, prefix_of_app. by destruct x.
Qed.
Lemma st_list_in c w s m : sim c w -> In m (st_list lister x c s) <-> get_gvk m = x /\ w !! source_id m = Some m /\ selects s m = true.
Proof. intros H. unfold st_list. rewrite (vc_list_in hash lister L c w _ _ _ H), list_kind. naive_solver. Qed.
Lemma st_list_ids c w s : sim c w -> NoDup (map obj_id (st_list lister x c s)).
Proof. intros H. unfold st_list. by eapply vc_list_ids. Qed.
Lemma st_list_keys c w s : sim c w -> NoDup (map store_key (st_list lister x c s)).
Proof. intros H. unfold st_list. by eapply vc_list_keys. Qed.

Lemma delete_each_items v l : forall c, (delete_items c (List.filter v l)).2 = VOk -> delete_each c v l = (delete_items c (List.filter v l)).1.
Proof.
  induction l as [|m l IH]; intros c; [done|]. cbn [delete_each List.filter]. destruct (v m); [|apply IH]. cbn [delete_items].
  destruct (vc_delete c m) as [[c1 es] [| |]]; [|done..]. specialize (IH c1). destruct (delete_items c1 (List.filter v l)) as [[c2 es'] r]. cbn in *. intros ->. by rewrite IH.
Qed.

Lemma delete_all_sim c w s (v : jobj -> bool) : sim c w ->
  let l := st_list lister x c s in
  let '(c', es) := delete_each c v l in
  let w' := filter (fun e => ~ (e.1.1 = x /\ selects s e.2 = true /\ v e.2 = true)) w in
  sim c' w' /\ tells w es w'.
Proof.
  intros H. cbv zeta. set (l := st_list lister x c s). assert (Hin : forall m, In m (List.filter v l) <-> get_gvk m = x /\ w !! source_id m = Some m /\ selects s m = true /\ v m = true).
  { intros m. rewrite filter_In. unfold l. rewrite (st_list_in c w) by done. naive_solver. }
  assert (D := delete_items_sim hash x (List.filter v l) c w H). destruct D as (D1 & D2 & D3).
  { intros m Hm. apply Hin in Hm. destruct Hm as (Hg & Hw & _). destruct (sim_w _ _ _ H _ _ _ Hw) as [E _]. rewrite <- Hg. exact E. }
  { apply map_filter_nodup. by eapply st_list_keys. }
  assert (E : foldl (fun w m => delete (source_id m) w) w (List.filter v l) = filter (fun e => ~ (e.1.1 = x /\ selects s e.2 = true /\ v e.2 = true)) w).
  { apply map_eq. intros [y i]. rewrite foldl_delete. symmetry. case_decide as Ey.
    - apply elem_of_list_In, in_map_iff in Ey as (m' & Ey & Hm). apply Hin in Hm as (Hg & Hw & Hs). apply map_filter_lookup_None. right. intros m'' Hv N. apply N.
      rewrite Ey in Hw. assert (m'' = m') as -> by congruence. split; [|done]. cbn [fst]. rewrite <- Hg. by injection Ey.
    - destruct (w !! (y, i)) as [m'|] eqn:Ew.
      + apply map_filter_lookup_Some. split; [done|]. intros (E1 & E2). apply Ey. apply elem_of_list_In, in_map_iff. destruct (sim_w _ _ _ H _ _ _ Ew) as [_ Es].
        exists m'. split; [done|]. apply Hin. cbn in E1, E2. subst y. rewrite Es. split; [exact (f_equal fst Es)|done].
      + apply map_filter_lookup_None. by left. }
  assert (F := delete_each_items v l c). rewrite D2 in F. rewrite F by done.
  destruct (delete_items c (List.filter v l)) as [[c' es] r]. cbn in *. rewrite E in D1, D3. done.
Qed.

Lemma serve_sim c w r : sim c w -> request_ok r -> serves w (serve hash lister x true c r) (ideal_serve hash w x r).
Proof.
  intros H R. destruct r as [ns name|ns labels fields|ns m v o|ns name upd vn v force o|ns name v o|ns v labels fields o]; cbn [serve].
  - destruct ns as [ns|]; [|by apply serves_same]. cbn in R. rewrite (st_get_sim c w) by done. by apply serves_same.
  - split; [done|]. split; [|apply tells_nil]. cbn. eexists. split; [done|]. split; [by eapply st_list_ids|]. intros m. by apply st_list_in.
  - destruct R as [R1 R2]. by apply st_create_sim.
  - by apply st_update_sim.
  - by apply st_delete_sim.
  - assert (D := delete_all_sim c w (st_selection true ns labels fields) v H). cbv zeta in D.
    destruct (delete_each c v (st_list lister x c (st_selection true ns labels fields))) as [c' es]. destruct D as [D1 D2]. split; [done|]. split; [|done]. cbn.
    eexists. split; [done|]. split; [by eapply st_list_ids|]. intros m. by apply st_list_in.
Qed.
End proofs.

Section history.
Variable hash : string -> string.
Variable lister : store -> list jobj.
Hypothesis L : lists_all lister.

Lemma sact_sim c w a : sim hash c w -> sact_ok a ->
  let '(c', es, r) := sact_step hash lister c a in let '(w', e) := ideal_act hash w a in sim hash c' w' /\ result_as r e /\ tells w es w'.
Proof.
  intros H A. destruct a as [x r|o].
  - destruct A as (O & G & R). assert (S := serve_sim hash lister L x O G c w r H R). cbn. destruct (serve hash lister x true c r) as [[c' es] p]. destruct (ideal_serve hash w x r) as [w' e]. exact S.
  - assert (S := vstep_sim hash lister L c w o H A). cbn. destruct (vstep hash lister c o) as [[c' es] p]. destruct (ideal_step hash w o) as [w' e]. exact S.
Qed.
Lemma sacts_sim l : forall c w, sim hash c w -> Forall sact_ok l ->
  let '(c', es, rs) := sact_run hash lister c l in let '(w', exps) := ideal_acts hash w l in sim hash c' w' /\ Forall2 result_as rs exps /\ tells w es w'.
Proof.
  induction l as [|a l IH]; intros c w H F; cbn [sact_run ideal_acts].
  - split; [done|]. split; [constructor|apply tells_nil].
  - apply Forall_cons in F. destruct F as [F1 F2]. assert (A := sact_sim c w a H F1). destruct (sact_step hash lister c a) as [[c1 es] r]. destruct (ideal_act hash w a) as [w1 e]. destruct A as (A1 & A2 & A3).
    specialize (IH c1 w1 A1 F2). destruct (sact_run hash lister c1 l) as [[c2 es'] rs]. destruct (ideal_acts hash w1 l) as [w2 exps]. destruct IH as (B1 & B2 & B3).
    split; [done|]. split; [by constructor|]. by eapply tells_app.
Qed.
End history.

(** *** Isolation *)
Definition keyed (w : world) : Prop := forall y i m, w !! (y, i) = Some m -> source_id m = (y, i).
Definition same_world (P : gvk -> string -> Prop) (w1 w2 : world) : Prop := forall y i, P y i.1 -> w1 !! (y, i) = w2 !! (y, i).
Lemma sim_keyed hash c w : sim hash c w -> keyed w.
Proof. intros H y i m E. by apply (sim_w _ _ _ H) in E as [_ E]. Qed.
Lemma sim_at hash c w y i m : sim hash c w -> w !! (y, i) = Some m -> is_view_kind y = true /\ plain i.
Proof.
  intros H E. destruct (sim_w _ _ _ H _ _ _ E) as [E1 E2]. destruct (sim_c _ _ _ H _ _ _ E1) as [[] _]. split; [done|]. injection E2 as _ E2. by rewrite <- E2.
Qed.
Lemma same_on_world hash c1 w1 c2 w2 P : sim hash c1 w1 -> sim hash c2 w2 -> same_on P c1 c2 <-> same_world P w1 w2.
Proof.
  intros H1 H2. split.
  - intros A y [ns name] Hy. destruct (w1 !! (y, (ns, name))) as [m|] eqn:E1.
    + destruct (sim_at _ _ _ _ _ _ H1 E1) as [V Hp]. rewrite <- (vc_get_sim hash c2 w2), <- A by done. by rewrite (vc_get_sim hash c1 w1).
    + destruct (w2 !! (y, (ns, name))) as [m|] eqn:E2; [|done]. destruct (sim_at _ _ _ _ _ _ H2 E2) as [V Hp].
      rewrite <- (vc_get_sim hash c1 w1), A in E1 by done. by rewrite (vc_get_sim hash c2 w2), E2 in E1.
  - intros A y ns name V Hp Hy. rewrite (vc_get_sim hash c1 w1), (vc_get_sim hash c2 w2) by done. by apply A.
Qed.
Lemma selects_ns s m : selects s m = true -> sel_ns s = EmptyString \/ get_namespace m = sel_ns s.
Proof. unfold selects. rewrite !andb_true_iff, orb_true_iff. intros [[[H|H] _] _]; apply String.eqb_eq in H; auto. Qed.

Section isolation.
Variable hash : string -> string.
Variable x : gvk.
Lemma ideal_create_other w ns m v y i : ~ (y = x /\ i.1 = default EmptyString ns) -> (ideal_create hash w x ns m v).1 !! (y, i) = w !! (y, i).
Proof.
  intros N. unfold ideal_create. destruct (v m), ns; try done. cbn. rewrite lookup_insert_ne; [done|]. intros E. apply N. injection E as -> <-. done.
Qed.
Lemma ideal_serve_other w r y i : keyed w -> ~ about x r y i.1 -> (ideal_serve hash w x r).1 !! (y, i) = w !! (y, i).
Proof.
  intros K N. destruct r as [[ns|] name|ns labels fields|ns m v o|[ns|] name upd vn v force o|[ns|] name v o|ns v labels fields o]; cbn [ideal_serve]; try done.
  - apply ideal_create_other. intros [-> E]. apply N. split; [done|]. by left.
  - assert (N' : ~ (y = x /\ i.1 = ns)) by (intros [-> E]; apply N; split; [done|]; by left).
    destruct (w !! (x, (ns, name))) as [cur|].
    + destruct (upd (Some cur)) as [m|]; [|done]. destruct (v m cur); [|done]. cbn. rewrite lookup_insert_ne; [done|]. intros E. apply N'. injection E as -> <-. done.
    + destruct force; [|done]. destruct (upd None) as [m|]; [|done]. by apply ideal_create_other.
  - assert (N' : ~ (y = x /\ i.1 = ns)) by (intros [-> E]; apply N; split; [done|]; by left).
    destruct (w !! (x, (ns, name))) as [cur|]; [|done]. destruct (v cur); [|done]. cbn. rewrite lookup_delete_ne; [done|]. intros E. apply N'. injection E as -> <-. done.
  - cbn. destruct (w !! (y, i)) as [m|] eqn:E; [|apply map_filter_lookup_None; by left]. apply map_filter_lookup_Some. split; [done|]. cbn. intros (-> & Hs & _). apply N.
    split; [done|]. apply selects_ns in Hs. cbn in Hs. apply K in E. injection E as _ E. destruct Hs as [Hs|Hs]; [by right|]. left. cbn. rewrite <- Hs. by rewrite <- E.
Qed.

Definition alike_expected (e1 e2 : expected) : Prop :=
  match e1, e2 with Exactly r1, Exactly r2 => r1 = r2 | Listing p1, Listing p2 => forall m, p1 m <-> p2 m | _, _ => False end.
Lemma alike_as e1 e2 r1 r2 : as_expected r1 e1 -> as_expected r2 e2 -> alike_expected e1 e2 -> alike r1 r2.
Proof.
  destruct e1 as [a|p1], e2 as [b|p2]; cbn; try done.
  - intros -> -> ->. by left.
  - intros (l1 & -> & N1 & H1) (l2 & -> & N2 & H2) A. right. exists l1, l2. split_and!; [done..|]. apply NoDup_Permutation; [by eapply NoDup_fmap_1|by eapply NoDup_fmap_1|].
    intros m. rewrite !elem_of_list_In, H1, H2. apply A.
Qed.
Lemma same_insert (P : gvk -> string -> Prop) (w1 w2 : world) (k : gvk * (string * string)) (m : jobj) : same_world P w1 w2 -> same_world P (<[k := m]> w1) (<[k := m]> w2).
Proof. intros A y i Hy. destruct (decide (k = (y, i))) as [->|]; [by rewrite !lookup_insert|]. rewrite !lookup_insert_ne by done. by apply A. Qed.
Lemma same_delete (P : gvk -> string -> Prop) (w1 w2 : world) (k : gvk * (string * string)) : same_world P w1 w2 -> same_world P (delete k w1) (delete k w2).
Proof. intros A y i Hy. destruct (decide (k = (y, i))) as [->|]; [by rewrite !lookup_delete|]. rewrite !lookup_delete_ne by done. by apply A. Qed.
Lemma ideal_create_alike (P : gvk -> string -> Prop) w1 w2 ns m v : same_world P w1 w2 ->
  let '(w1', e1) := ideal_create hash w1 x ns m v in let '(w2', e2) := ideal_create hash w2 x ns m v in same_world P w1' w2' /\ alike_expected e1 e2.
Proof. intros A. unfold ideal_create. destruct (v m), ns; try done. split; [|done]. by apply same_insert. Qed.
Lemma listing_alike w1 w2 r s : by_name r = false -> sel_ns s = req_ns r -> keyed w1 -> keyed w2 -> same_world (about x r) w1 w2 ->
  forall m, get_gvk m = x /\ w1 !! source_id m = Some m /\ selects s m = true <-> get_gvk m = x /\ w2 !! source_id m = Some m /\ selects s m = true.
Proof.
  intros B Es K1 K2 A m. assert (get_gvk m = x -> selects s m = true -> w1 !! source_id m = w2 !! source_id m).
  { intros E1 Hs. apply A. split; [done|]. cbn. apply selects_ns in Hs. rewrite Es in Hs. destruct Hs; auto. }
  split; intros (H1 & H2 & H3); [rewrite <- H by done|rewrite H by done]; done.
Qed.
Lemma ideal_serve_alike w1 w2 r : keyed w1 -> keyed w2 -> same_world (about x r) w1 w2 ->
  let '(w1', e1) := ideal_serve hash w1 x r in let '(w2', e2) := ideal_serve hash w2 x r in same_world (about x r) w1' w2' /\ alike_expected e1 e2.
Proof.
  intros K1 K2 A. destruct r as [[ns|] name|ns labels fields|ns m v o|[ns|] name upd vn v force o|[ns|] name v o|ns v labels fields o]; cbn [ideal_serve]; try done.
  - split; [done|]. rewrite (A x (ns, name)); [done|]. split; [done|]. by left.
  - split; [done|]. intros m; by apply (listing_alike w1 w2 (SList ns labels fields) (Selection (default EmptyString ns) labels fields)).
  - by apply ideal_create_alike.
  - rewrite (A x (ns, name)) by (split; [done|]; by left). destruct (w2 !! (x, (ns, name))) as [cur|].
    + destruct (upd (Some cur)) as [m|]; [|done]. destruct (v m cur); [|done]. split; [|done]. by apply same_insert.
    + destruct force; [|done]. destruct (upd None) as [m|]; [|done]. by apply ideal_create_alike.
  - rewrite (A x (ns, name)) by (split; [done|]; by left). destruct (w2 !! (x, (ns, name))) as [cur|]; [|done]. destruct (v cur); [|done]. split; [|done]. by apply same_delete.
  - split; [|intros m; by apply (listing_alike w1 w2 (SDeleteAll ns v labels fields o) (Selection (default EmptyString ns) labels fields))]. intros y i Hy.
    apply option_eq. intros m. rewrite !map_filter_lookup_Some. by rewrite (A y i Hy).
Qed.
End isolation.

(** *** Tables *)
Lemma well_known_spec t : match well_known t with
  | Some p => p = S (importance t) /\ (importance t < 4)%nat /\ (forall s, before_colon (pair_of (t, s)) = t)
  | None => importance t = 4%nat
  end.
Proof. unfold well_known, importance. repeat case_decide; subst; try done; split_and!; try lia; done. Qed.
Fixpoint ins (a : string * string) (l : list (string * string)) : list (string * string) :=
  match l with [] => [a] | b :: l => if (importance a.1 <? importance b.1)%nat then a :: b :: l else b :: ins a l end.
Definition known_pair (a : string * string) : Prop := (importance a.1 < 4)%nat.
Lemma known_rank a : known_pair a -> rank (before_colon (pair_of a)) = S (importance a.1).
Proof. destruct a as [t s]. unfold known_pair. cbn [fst]. intros H. unfold rank. assert (E := well_known_spec t). destruct (well_known t) as [p|] eqn:W; [|lia]. destruct E as (-> & _ & E). by rewrite E, W. Qed.
Lemma insert_pair_ins a l : known_pair a -> Forall known_pair l -> insert_pair (S (importance a.1)) (pair_of a) (map pair_of l) = map pair_of (ins a l).
Proof.
  intros H. induction l as [|b l IH]; [done|]. intros F. apply Forall_cons in F as [F1 F2]. cbn [map insert_pair ins]. rewrite known_rank by done. rewrite IH by done.
  change (S (importance a.1) <? S (importance b.1))%nat with (importance a.1 <? importance b.1)%nat. by destruct (importance a.1 <? importance b.1)%nat.
Qed.
Lemma ins_forall (P : string * string -> Prop) a l : P a -> Forall P l -> Forall P (ins a l).
Proof. intros H. induction l as [|b l IH]; intros F; cbn [ins]; [by constructor|]. apply Forall_cons in F as [F1 F2]. destruct (importance a.1 <? importance b.1)%nat; [constructor; [done|by constructor]|constructor; auto]. Qed.
Lemma ins_sorted a l : StronglySorted by_importance l -> StronglySorted by_importance (ins a l).
Proof.
  induction 1 as [|b l H IH F]; cbn [ins]; [repeat constructor|]. destruct (Nat.ltb_spec (importance a.1) (importance b.1)).
  - constructor; [by constructor|]. constructor; [unfold by_importance; lia|]. eapply Forall_impl; [exact F|]. unfold by_importance. intros c Hc. lia.
  - constructor; [done|]. apply ins_forall; [done|done].
Qed.
Notation of_imp n := (List.filter (fun a : string * string => Nat.eqb (importance a.1) n)).
Lemma filter_none n l : Forall (fun a => importance a.1 <> n) l -> of_imp n l = [].
Proof. induction 1 as [|a l Ha H IH]; [done|]. cbn. rewrite (proj2 (Nat.eqb_neq _ _)) by done. done. Qed.
Lemma ins_filter n a l : StronglySorted by_importance l -> of_imp n (ins a l) = of_imp n l ++ of_imp n [a].
Proof.
  induction 1 as [|b l H IH F]; [done|]. cbn [ins]. destruct (Nat.ltb_spec (importance a.1) (importance b.1)).
  - destruct (Nat.eqb_spec (importance a.1) n) as [E|E].
    + rewrite (filter_none n (b :: l)); [|constructor; [lia|]; eapply Forall_impl; [exact F|]; unfold by_importance; intros c Hc; lia].
      change (of_imp n ([a] ++ b :: l) = [] ++ of_imp n [a]). rewrite List.filter_app, (filter_none n (b :: l)); [by rewrite app_nil_r|].
      constructor; [lia|]; eapply Forall_impl; [exact F|]; unfold by_importance; intros c Hc; lia.
    + cbn [List.filter]. rewrite (proj2 (Nat.eqb_neq _ _) E). by rewrite app_nil_r.
  - cbn [List.filter] in *. destruct (importance b.1 =? n)%nat; rewrite IH; done.
Qed.
Lemma sort_conditions_spec l ts : conditions_are l ts -> forall K O, Forall known_pair K -> StronglySorted by_importance K ->
  exists K' O', sort_conditions l (map pair_of K) (map pair_of O) = (map pair_of K', map pair_of (O ++ O')) /\ Forall known_pair K' /\ StronglySorted by_importance K'
    /\ Forall (fun a => importance a.1 = 4%nat) O' /\ forall n, of_imp n K' ++ of_imp n O' = of_imp n K ++ of_imp n ts.
Proof.
  induction 1 as [|c t s l ts (m & -> & Et & Es) H IH|c l ts N H IH]; intros K O HK SK.
  - exists K, []. rewrite app_nil_r. split_and!; try done.
  - cbn [sort_conditions]. rewrite Et, Es. change (t +:+ ":" +:+ s)%string with (pair_of (t, s)). assert (W := well_known_spec t). destruct (well_known t) as [p|].
    + destruct W as (-> & W & _). change (S (importance t)) with (S (importance (t, s).1)). rewrite insert_pair_ins by done.
      destruct (IH (ins (t, s) K) O) as (K' & O' & E & H1 & H2 & H3 & H4); [by apply ins_forall|by apply ins_sorted|]. exists K', O'. split_and!; try done.
      intros n. rewrite H4, ins_filter, <- app_assoc by done. f_equal. change ((t, s) :: ts) with ([(t, s)] ++ ts). by rewrite List.filter_app.
    + change [pair_of (t, s)] with (map pair_of [(t, s)]). rewrite <- map_app.
      destruct (IH K (O ++ [(t, s)])) as (K' & O' & E & H1 & H2 & H3 & H4); [done..|]. exists K', ((t, s) :: O'). split_and!; try done.
      * rewrite E. by rewrite <- app_assoc.
      * by constructor.
      * intros n. cbn [List.filter fst]. rewrite W. destruct (Nat.eqb_spec 4 n) as [<-|Hn]; [|by apply H4].
        assert (F1 : of_imp 4 K = []) by (apply filter_none; eapply Forall_impl; [exact HK|]; unfold known_pair; intros; lia).
        assert (F2 : of_imp 4 K' = []) by (apply filter_none; eapply Forall_impl; [exact H1|]; unfold known_pair; intros; lia).
        specialize (H4 4%nat). rewrite F1, F2 in *. cbn [app] in *. by rewrite H4.
  - assert (E : sort_conditions (c :: l) (map pair_of K) (map pair_of O) = sort_conditions l (map pair_of K) (map pair_of O)).
    { cbn. destruct c as [| | | | | |m]; try done. destruct (mget m "type") as [[]|] eqn:Et; try done. destruct (mget m "status") as [[]|] eqn:Es; try done. exfalso. eapply N. by exists m. }
    rewrite E. by apply IH.
Qed.
Lemma sorted_app K O : StronglySorted by_importance K -> Forall known_pair K -> Forall (fun a => importance a.1 = 4%nat) O -> StronglySorted by_importance (K ++ O).
Proof.
  intros SK FK FO. induction SK as [|a K H IH F]; cbn.
  - induction FO as [|a O Ha FO IH]; constructor; [done|]. eapply Forall_impl; [exact FO|]. unfold by_importance. intros b Hb. cbn in Hb. lia.
  - apply Forall_cons in FK as [FK1 FK2]. constructor; [by apply IH|]. apply Forall_app. split; [done|]. eapply Forall_impl; [exact FO|]. unfold by_importance, known_pair in *. intros b Hb. cbn in Hb. lia.
Qed.
Lemma at_most_summary l : l <> [] -> at_most_three l = summary l.
Proof.
  intros N. destruct l as [|a [|b [|c [|d l]]]]; [done|done|done|done|]. unfold at_most_three, summary, enc_int. cbn [length Nat.ltb Nat.leb]. cbn [take join_comma].
  rewrite !app_assoc_s. done.
Qed.

(** *** Answers *)
Lemma cl_update_failed hash c m : let '(c', es, p) := cl_update hash c m in p = VOk \/ (c' = c /\ es = []).
Proof. unfold cl_update, vc_update. repeat case_match; simplify_eq; auto. Qed.
Lemma vc_delete_failed c m : let '(c', es, p) := vc_delete c m in p = VOk \/ (c' = c /\ es = []).
Proof. unfold vc_delete. repeat case_match; simplify_eq; auto. Qed.
Lemma serve_failed hash lister x namespaced c r : let '(c', es, p) := serve hash lister x namespaced c r in failure p -> c' = c /\ es = [].
Proof.
  assert (C : forall ns m v o, let '(c', es, p) := st_create hash x namespaced c ns m v o in failure p -> c' = c /\ es = []).
  { intros ns m v o. unfold st_create. destruct (v m); [|done]. destruct (if namespaced then _ else _) as [m'|]; [|done].
    unfold vc_add. destruct (is_view_kind (get_gvk m')); [|done]. intros [|[|[|]]]; simplify_eq; done. }
  destruct r as [ns name|ns labels fields|ns m v o|ns name upd vn v force o|ns name v o|ns v labels fields o]; cbn [serve]; try done.
  - apply C.
  - unfold st_update. destruct (st_get x namespaced c ns name) as [cur| | | | | |]; try done.
    + destruct (upd (Some cur)) as [m|]; [|done]. destruct (v m cur); [|done].
      assert (N : let '(c', es, p) := cl_update hash c (set_gvk m x) in p = VOk \/ (c' = c /\ es = [])) by apply cl_update_failed.
      destruct (cl_update hash c (set_gvk m x)) as [[c' es] [| |]]; intros F; [|by destruct N..]. destruct F as [F|[F|[F|F]]]; done.
    + destruct force; [|done]. destruct (upd None) as [m|]; [|done]. apply C.
  - unfold st_delete. destruct (st_get x namespaced c ns name) as [m| | | | | |]; try done. destruct (v m); [|done].
    assert (N : let '(c', es, p) := vc_delete c m in p = VOk \/ (c' = c /\ es = [])) by apply vc_delete_failed.
    destruct (vc_delete c m) as [[c' es] [| |]]; intros F; [|by destruct N..]. destruct F as [F|[F|[F|F]]]; done.
  - destruct (delete_each _ _ _) as [c' es]. intros [|[|[|]]]; done.
Qed.

Section answers.
Variable hash : string -> string.
Variable x : gvk.
Hypothesis G : gvk_ok x.
Lemma set_gvk_get m : get_gvk (set_gvk m x) = x.
Proof. apply gvk_is_get; [done|apply set_gvk_is]. Qed.
Lemma create_shown w ns m v q n : sendable m -> as_expected q (ideal_create hash w x ns m v).2 -> In n (shown q) -> get_gvk n = x /\ get_namespace n = default EmptyString ns.
Proof.
  intros S. unfold ideal_create. destruct (v m), ns as [ns|]; cbn; intros ->; try done. intros [<-|[]]. split; [by apply placed_gvk|]. exact (f_equal fst (placed_id x ns m S)).
Qed.
Lemma ideal_shown w r : request_ok r -> keyed w -> sound w -> forall q, as_expected q (ideal_serve hash w x r).2 -> forall n, In n (shown q) -> about x r (get_gvk n) (get_namespace n).
Proof.
  intros R K K2 q A n Hn. destruct r as [[ns|] name|ns labels fields|ns m v o|[ns|] name upd vn v force o|[ns|] name v o|ns v labels fields o]; cbn [ideal_serve] in A; try (cbn in A; subst q; by destruct Hn).
  - cbn in A. subst q. destruct (w !! (x, (ns, name))) as [m|] eqn:E; [|by destruct Hn]. destruct Hn as [<-|[]]. apply K in E. unfold source_id in E. injection E as E1 E2 _. split; [done|]. by left.
  - destruct A as (l & -> & _ & A). apply A in Hn as (E1 & _ & Hs). split; [done|]. apply selects_ns in Hs. cbn in *. destruct Hs as [Hs|Hs]; auto.
  - destruct R as [R _]. eapply create_shown in R as [E1 E2]; [|done..]. split; [done|]. by left.
  - destruct R as [_ R]. destruct (w !! (x, (ns, name))) as [cur|] eqn:E.
    + destruct (upd (Some cur)) as [m|] eqn:Eu; [|cbn in A; subst q; by destruct Hn]. destruct (v m cur); cbn in A; subst q; [|by destruct Hn]. destruct Hn as [<-|[]].
      split; [apply set_gvk_get|]. left. apply K2 in E as [E _]. apply R in Eu as [_ Eu]; [|done]. assert (E' := set_gvk_id m x). rewrite Eu in E'. exact (f_equal fst E').
    + destruct force; [|cbn in A; subst q; by destruct Hn]. destruct (upd None) as [m|] eqn:Eu; [|cbn in A; subst q; by destruct Hn].
      apply (R None m I) in Eu as [R' _]. destruct (create_shown w (Some ns) m vn q n R' A Hn) as [E1 E2]. split; [done|]. by left.
  - destruct (w !! (x, (ns, name))) as [m|] eqn:E; [|cbn in A; subst q; by destruct Hn]. destruct (v m); cbn in A; subst q; [|by destruct Hn]. destruct Hn as [<-|[]].
    apply K in E. unfold source_id in E. injection E as E1 E2 _. split; [done|]. by left.
  - destruct A as (l & -> & _ & A). apply A in Hn as (E1 & _ & Hs). split; [done|]. apply selects_ns in Hs. cbn in *. destruct Hs as [Hs|Hs]; auto.
Qed.

Lemma create_read_back w ns m v name : sendable m -> get_name m = name -> let '(w', e) := ideal_create hash w x (Some ns) m v in
  match e with
  | Exactly (SObject m) => obj_id m = (ns, name) /\ w' !! (x, (ns, name)) = Some (stamp hash m)
  | Exactly (SGone m) => w !! (x, (ns, name)) = Some m /\ w' !! (x, (ns, name)) = None
  | Exactly _ => w' !! (x, (ns, name)) = w !! (x, (ns, name))
  | Listing _ => False
  end.
Proof. intros S <-. unfold ideal_create. destruct (v m); [|done]. split; [by apply placed_id|]. by rewrite lookup_insert. Qed.
Lemma ideal_read_back w r ns name : request_ok r -> sound w ->
  match r with SCreate n m _ _ => n = Some ns /\ get_name m = name | SUpdate n name' _ _ _ _ _ | SDelete n name' _ _ => n = Some ns /\ name' = name | _ => False end ->
  let '(w', e) := ideal_serve hash w x r in
  match e with
  | Exactly (SObject m) => obj_id m = (ns, name) /\ w' !! (x, (ns, name)) = Some (stamp hash m)
  | Exactly (SGone m) => w !! (x, (ns, name)) = Some m /\ w' !! (x, (ns, name)) = None
  | Exactly _ => w' !! (x, (ns, name)) = w !! (x, (ns, name))
  | Listing _ => False
  end.
Proof.
  intros R K H. destruct r as [| |n m v o|n nm upd vn v force o|n nm v o|]; try done; destruct H as [-> H]; cbn [ideal_serve].
  - destruct R as [R _]. by apply create_read_back.
  - subst nm. destruct R as [_ R]. destruct (w !! (x, (ns, name))) as [cur|] eqn:E.
    + destruct (upd (Some cur)) as [m|] eqn:Eu; [|done]. destruct (v m cur); [|done]. split; [|by rewrite lookup_insert]. rewrite set_gvk_id. apply K in E as [E _]. by apply R in Eu as [_ Eu].
    + destruct force; [|done]. destruct (upd None) as [m|] eqn:Eu; [|done]. apply (R None m I) in Eu as [R1 R2]. assert (C := create_read_back w ns m vn name R1 (f_equal snd R2)). rewrite E in C. exact C.
  - subst nm. destruct (w !! (x, (ns, name))) as [m|] eqn:E; [|done]. destruct (v m); [|done]. split; [done|]. by rewrite lookup_delete.
Qed.
End answers.

Lemma conditions_total l : exists ts, conditions_are l ts.
Proof.
  induction l as [|c l (ts & IH)]; [exists []; constructor|].
  assert (D : (exists t s, condition t s c) \/ (forall t s, ~ condition t s c)).
  { destruct c as [| | | | | |m]; [right; intros ? ? (? & [=] & _)..|].
    destruct (mget m "type") as [[| | | |t| |]|] eqn:Et; try (right; intros t' s (m' & [= <-] & E1 & E2); congruence).
    destruct (mget m "status") as [[| | | |s| |]|] eqn:Es; try (right; intros t' s' (m' & [= <-] & E1 & E2); congruence).
    left. exists t, s. by exists m. }
  destruct D as [(t & s & D)|D]; [exists ((t, s) :: ts); by constructor|exists ts; by constructor].
Qed.
Lemma sorted_unique l1 : forall l2, StronglySorted by_importance l1 -> StronglySorted by_importance l2 -> (forall n, of_imp n l1 = of_imp n l2) -> l1 = l2.
Proof.
  induction l1 as [|a l1 IH]; intros [|b l2] S1 S2 F.
  - done.
  - specialize (F (importance b.1)). cbn in F. by rewrite Nat.eqb_refl in F.
  - specialize (F (importance a.1)). cbn in F. by rewrite Nat.eqb_refl in F.
  - inversion S1 as [|? ? S1' F1]; inversion S2 as [|? ? S2' F2]; subst.
    assert (E : importance a.1 = importance b.1).
    { destruct (Nat.lt_trichotomy (importance a.1) (importance b.1)) as [H|[H|H]]; [|done|].
      - exfalso. assert (Fa := F (importance a.1)). rewrite (filter_none (importance a.1) (b :: l2)) in Fa; [cbn in Fa; by rewrite Nat.eqb_refl in Fa|].
        constructor; [lia|]. eapply Forall_impl; [exact F2|]. unfold by_importance. intros c Hc. lia.
      - exfalso. assert (Fb := F (importance b.1)). rewrite (filter_none (importance b.1) (a :: l1)) in Fb; [cbn in Fb; by rewrite Nat.eqb_refl in Fb|].
        constructor; [lia|]. eapply Forall_impl; [exact F1|]. unfold by_importance. intros c Hc. lia. }
    assert (a = b) as ->. { assert (Fa := F (importance a.1)). cbn in Fa. rewrite E, Nat.eqb_refl in Fa. by injection Fa. }
    f_equal. apply IH; [done..|]. intros n. specialize (F n). cbn in F. destruct (importance b.1 =? n)%nat; [by injection F|done].
Qed.
