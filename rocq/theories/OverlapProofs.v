(** Proofs about calls on the view cache that overlap. *)
From Verif Require Import JsonModel JsonSpec JsonProofs ObjModel ObjProofs ValueModel ValueSpec ValueProofs GroupModel GroupSpec GroupProofs ZSetSpec PipelineSpec ViewModel ViewSpec
  ReconcileProofs ViewProofs ViewProofs2 WriterSpec WriterProofs StorageModel StorageSpec StorageProofs OverlapModel OverlapSpec.

(** ** A call that nothing interrupts *)
Section alone.
Variable hash : string -> string.
Variable lister : store -> list jobj.
Fixpoint alone (p : call) (c : caches) : caches * sresult :=
  match p with
  | Return r => (c, r)
  | Fetch x k f => alone (f (cache_of c x !! k)) c
  | Scan x f => alone (f (lister (cache_of c x))) c
  | Store x m f => alone f (put c x m)
  | Erase x k f => alone f (drop_key c x k)
  end.
Lemma alone_add c m f : alone (c_add hash m f) c = let '(c', _, r) := vc_add hash c m in alone (f r) c'.
Proof. unfold c_add, vc_add. by destruct (is_view_kind _). Qed.
Lemma alone_update c old m f : alone (c_update hash old m f) c = let '(c', _, r) := vc_update hash c old m in alone (f r) c'.
Proof. unfold c_update, vc_update. destruct (is_view_kind _); [|done]. by destruct (obj_equal _ _). Qed.
Lemma alone_delete c m f : alone (c_delete m f) c = let '(c', _, r) := vc_delete c m in alone (f r) c'.
Proof. unfold c_delete, vc_delete. destruct (is_view_kind _); [|done]. cbn [alone]. by destruct (cache_of _ _ !! _). Qed.
Lemma alone_get c x ns name f : alone (c_get x ns name f) c = alone (f (vc_get c x ns name)) c.
Proof. unfold c_get, vc_get. by destruct (is_view_kind _). Qed.
Lemma alone_list c x s f : alone (c_list x s f) c = alone (f (vc_list lister c x s)) c.
Proof. done. Qed.
Lemma alone_current c m f : alone (c_current m f) c = alone (f (current c m)) c.
Proof. apply alone_get. Qed.
Lemma alone_cl_update c m f : alone (c_cl_update hash m f) c = let '(c', _, r) := cl_update hash c m in alone (f r) c'.
Proof.
  unfold c_cl_update, cl_update. rewrite alone_current. destruct (current c m); [|done]. destruct (obj_equal _ _); [done|]. apply alone_update.
Qed.
Lemma alone_patch c m p f : alone (c_patch hash m p f) c = let '(c', _, r) := cl_patch hash c m p in alone (f r) c'.
Proof. unfold c_patch, cl_patch. rewrite alone_current. destruct (current c m); [|done]. destruct (patch_object _ _); [|done]. apply alone_update. Qed.
Lemma alone_delete_items l f : forall c, alone (c_delete_items l f) c = let '(c', _, r) := delete_items c l in alone (f r) c'.
Proof.
  induction l as [|m l IH]; intros c; [done|]. cbn [c_delete_items delete_items]. rewrite alone_delete. destruct (vc_delete c m) as [[c1 es] [| |]]; [|done..].
  rewrite IH. by destruct (delete_items c1 l) as [[c2 es'] r].
Qed.
Lemma alone_delete_each v l p : forall c, alone (c_delete_each v l p) c = alone p (delete_each c v l).1.
Proof.
  induction l as [|m l IH]; intros c; [done|]. cbn [c_delete_each delete_each]. destruct (v m); [|apply IH]. rewrite alone_delete. destruct (vc_delete c m) as [[c1 es] r].
  rewrite IH. by destruct (delete_each c1 v l).
Qed.
Lemma alone_write c o f : alone (c_write hash o f) c = let '(c', _, r) := vstep hash lister c o in alone (f r) c'.
Proof.
  destruct o; cbn [c_write vstep].
  - apply alone_add.
  - apply alone_cl_update.
  - apply alone_patch.
  - apply alone_delete.
  - unfold c_delete_all, cl_delete_all. rewrite alone_list. apply alone_delete_items.
  - unfold c_sub_update, cl_sub_update. rewrite alone_current. destruct (current c m) as [old|]; [|done]. destruct (mget m sub) as [[]|]; try done.
    destruct (match mget old sub with Some (JMap w) => _ | _ => _ end); [done|]. apply alone_cl_update.
  - unfold c_sub_create, cl_sub_create. destruct (mget s sub) as [[]|]; try done. rewrite alone_current. destruct (current c m); [|done]. apply alone_cl_update.
Qed.
Lemma alone_st_get x n c ns name f : alone (c_st_get x n ns name f) c = alone (f (st_get x n c ns name)) c.
Proof. unfold c_st_get, st_get. destruct (st_key n ns name); [|done]. apply alone_get. Qed.
Lemma alone_st_create x n c ns m v o f : alone (c_st_create hash x n ns m v f) c = let '(c', _, r) := st_create hash x n c ns m v o in alone (f r) c'.
Proof.
  unfold c_st_create, st_create. destruct (v m); [|done]. destruct (if n then _ else _) as [m'|]; [|done]. rewrite alone_add. by destruct (vc_add hash c m') as [[c' es] [| |]].
Qed.
Lemma alone_serve x n c r f : alone (c_serve hash x n r f) c = let '(c', _, p) := serve hash lister x n c r in alone (f p) c'.
Proof.
  destruct r; cbn [c_serve serve].
  - apply alone_st_get.
  - apply alone_list.
  - apply alone_st_create.
  - unfold c_st_update, st_update. rewrite alone_st_get. destruct (st_get x n c ns name) as [cur| | | | | |]; try done.
    + destruct (upd (Some cur)) as [m|]; [|done]. destruct (valid m cur); [|done]. rewrite alone_cl_update. by destruct (cl_update hash c (set_gvk m x)) as [[c' es] [| |]].
    + destruct force; [|done]. destruct (upd None) as [m|]; [|done]. apply alone_st_create.
  - unfold c_st_delete, st_delete. rewrite alone_st_get. destruct (st_get x n c ns name) as [m| | | | | |]; try done. destruct (valid m); [|done].
    rewrite alone_delete. by destruct (vc_delete c m) as [[c' es] [| |]].
  - rewrite alone_list, alone_delete_each. unfold st_list. by destruct (delete_each c valid _).
Qed.
Lemma alone_begin c a : alone (begin hash a) c = let '(c', _, r) := sact_step hash lister c a in (c', r).
Proof.
  destruct a as [x r|o]; cbn [begin sact_step].
  - rewrite alone_serve. by destruct (serve hash lister x true c r) as [[c' es] p].
  - rewrite alone_write. by destruct (vstep hash lister c o) as [[c' es] p].
Qed.
Lemma alone_access p c : let '(c', p') := access lister c p in alone p' c' = alone p c.
Proof. by destruct p. Qed.
End alone.

(** ** What a call may touch *)
Section touch.
Variable hash : string -> string.
Variable lister : store -> list jobj.
Notation stamp := (stamp hash).
Notation stored_ok := (stored_ok hash).
Definition vok (c : caches) : Prop := forall x k m, cache_of c x !! k = Some m -> stored_ok x k m.
Definition found_ok (x : gvk) (k : string) (e : option jobj) : Prop := match e with Some m => stored_ok x k m | None => True end.

(** All accesses are to one object. *)
Inductive stays (x : gvk) (k : string) : call -> Prop :=
  | stays_return r : stays x k (Return r)
  | stays_fetch f : (forall e, found_ok x k e -> stays x k (f e)) -> stays x k (Fetch x k f)
  | stays_store m f : stored_ok x k m -> stays x k f -> stays x k (Store x m f)
  | stays_erase f : stays x k f -> stays x k (Erase x k f).
(** All writes are within [P]. *)
Inductive within (P : gvk -> string -> Prop) : call -> Prop :=
  | within_return r : within P (Return r)
  | within_fetch x k f : (forall e, found_ok x k e -> within P (f e)) -> within P (Fetch x k f)
  | within_scan x f : (forall l, Forall (fun m => stored_ok x (store_key m) m) l -> within P (f l)) -> within P (Scan x f)
  | within_store x m f : P x (store_key m) -> stored_ok x (store_key m) m -> within P f -> within P (Store x m f)
  | within_erase x k f : P x k -> within P f -> within P (Erase x k f).
(** At most [n] accesses, and at most one write, which comes last. *)
Inductive once : nat -> call -> Prop :=
  | once_return n r : once n (Return r)
  | once_fetch n x k f : (forall e, once n (f e)) -> once (S n) (Fetch x k f)
  | once_scan n x f : (forall l, once n (f l)) -> once (S n) (Scan x f)
  | once_store n x m r : once (S n) (Store x m (Return r))
  | once_erase n x k r : once (S n) (Erase x k (Return r)).
Lemma once_le n n' p : once n p -> (n <= n')%nat -> once n' p.
Proof.
  intros H. revert n'. induction H; intros n' L; [constructor|..]; (destruct n' as [|n']; [lia|]); constructor; intros; auto with lia.
Qed.

Lemma stays_within (P : gvk -> string -> Prop) x k p : P x k -> stays x k p -> within P p.
Proof.
  intros HP. induction 1 as [r|f _ IH|m f Hm _ IH|f _ IH]; constructor; try done; destruct Hm; subst k; done.
Qed.
Lemma within_weaken (P Q : gvk -> string -> Prop) p : (forall x k, P x k -> Q x k) -> within P p -> within Q p.
Proof. intros H. induction 1; constructor; auto. Qed.

Definition alter_at (c : caches) (x : gvk) (k : string) (v : option jobj) : caches := <[x := partial_alter (fun _ => v) k (cache_of c x)]> c.
Lemma put_alter c x m : put c x m = alter_at c x (store_key m) (Some m).
Proof. done. Qed.
Lemma drop_alter c x k : drop_key c x k = alter_at c x k None.
Proof. done. Qed.
Lemma cache_alter c x k v y : cache_of (alter_at c x k v) y = if decide (x = y) then partial_alter (fun _ => v) k (cache_of c x) else cache_of c y.
Proof. unfold cache_of, alter_at. case_decide; subst; [by rewrite lookup_insert|by rewrite lookup_insert_ne]. Qed.
Lemma lookup_alter_at c x k v y j : cache_of (alter_at c x k v) y !! j = if decide ((x, k) = (y, j)) then v else cache_of c y !! j.
Proof.
  rewrite cache_alter. destruct (decide (x = y)) as [->|N]; [|by rewrite decide_False by congruence].
  destruct (decide (k = j)) as [->|N]; [rewrite decide_True by done; apply lookup_partial_alter|].
  rewrite decide_False by congruence. by rewrite lookup_partial_alter_ne.
Qed.
Lemma alter_alter c x k v y j u : (x, k) <> (y, j) -> alter_at (alter_at c x k v) y j u = alter_at (alter_at c y j u) x k v.
Proof.
  intros N. unfold alter_at at 1 3. rewrite !cache_alter. destruct (decide (x = y)) as [<-|Nx].
  - rewrite decide_True by done. unfold alter_at. rewrite !insert_insert. f_equal. apply partial_alter_commute. congruence.
  - rewrite decide_False by congruence. unfold alter_at. by rewrite insert_commute.
Qed.
Lemma vok_alter c x k v : vok c -> found_ok x k v -> vok (alter_at c x k v).
Proof. intros V F y j m. rewrite lookup_alter_at. case_decide as E; [|apply V]. injection E as <- <-. intros ->. done. Qed.
Lemma vok_found c x k : vok c -> found_ok x k (cache_of c x !! k).
Proof. intros V. unfold found_ok. destruct (cache_of c x !! k) eqn:E; [|done]. by apply V. Qed.
Lemma vok_listed c x : lists_all lister -> vok c -> Forall (fun m => stored_ok x (store_key m) m) (lister (cache_of c x)).
Proof.
  intros L V. apply Forall_forall. intros m Hm. assert (Hp := L (cache_of c x)). apply elem_of_list_In in Hm. apply (Permutation_in _ Hp), in_map_iff in Hm as ([k m'] & <- & Hm).
  apply elem_of_list_In, elem_of_map_to_list in Hm. apply V in Hm. cbn. assert (E := so_key _ _ _ _ Hm). by rewrite E.
Qed.
Lemma vok_empty : vok ∅.
Proof. intros x k m. unfold cache_of. by rewrite lookup_empty. Qed.

(** Others do not disturb a call that stays elsewhere. *)
Lemma frame x k p : stays x k p -> forall c y j v, vok c -> (y, j) <> (x, k) ->
  alone lister p (alter_at c y j v) = (alter_at (alone lister p c).1 y j v, (alone lister p c).2).
Proof.
  induction 1 as [r|f _ IH|m f Hm _ IH|f _ IH]; intros c y j v V N; cbn [alone].
  - done.
  - rewrite lookup_alter_at, decide_False by done. apply IH; [by apply vok_found|done|done].
  - assert (Ek := so_key _ _ _ _ Hm). rewrite !put_alter, Ek, alter_alter by done. apply IH; [|done]. by apply vok_alter.
  - rewrite !drop_alter, alter_alter by done. apply IH; [|done]. by apply vok_alter.
Qed.

Lemma within_access P p c : lists_all lister -> within P p -> vok c -> let '(c', p') := access lister c p in within P p' /\ vok c' /\ forall x k, ~ P x k -> cache_of c' x !! k = cache_of c x !! k.
Proof.
  intros L W V. destruct W as [r|x k f H|x f H|x m f Hp Hs H|x k f Hp H]; cbn [access].
  - split_and!; [constructor|done|done].
  - split_and!; [apply H; by apply vok_found|done|done].
  - split_and!; [apply H; by apply vok_listed|done|done].
  - rewrite put_alter. split_and!; [done|by apply vok_alter|]. intros y j N. rewrite lookup_alter_at, decide_False; [done|]. by intros [= <- <-].
  - rewrite drop_alter. split_and!; [done|by apply vok_alter|]. intros y j N. rewrite lookup_alter_at, decide_False; [done|]. by intros [= <- <-].
Qed.
Lemma stays_access x k p c : stays x k p -> vok c -> let '(c', p') := access lister c p in stays x k p'.
Proof. intros S V. destruct S; cbn [access]; [constructor| |done|done]. apply H. by apply vok_found. Qed.
Lemma once_access n p c : once n p -> let '(c', p') := access lister c p in once (Nat.pred n) p' /\ (c' = c \/ exists r, p' = Return r).
Proof. intros O. destruct O; cbn [access Nat.pred]; split; try (by constructor); eauto. Qed.
End touch.

(** ** What the calls of the cache, the client and the storage touch *)
Section footprint.
Variable hash : string -> string.
Variable lister : store -> list jobj.
Notation stamp := (stamp hash).
Notation stored_ok := (stored_ok hash).
Notation stays := (stays hash).
Notation within := (within hash).
Definition at_key (i : string * string) : string := skey i.1 i.2.

Lemma writable_stored m x i : writable m -> is_view_kind (get_gvk m) = true -> source_id m = (x, i) -> stored_ok x (at_key i) (stamp m).
Proof.
  intros W V E. assert (S := stamp_stored hash m W V). rewrite <- (stamp_source hash m) in E. unfold source_id in E. injection E as E1 E2.
  rewrite store_key_skey in S. by rewrite E1, E2 in S.
Qed.
Lemma stays_add m f x i : writable m -> source_id m = (x, i) -> (forall r, stays x (at_key i) (f r)) -> stays x (at_key i) (c_add hash m f).
Proof.
  intros W E F. unfold c_add. destruct (is_view_kind (get_gvk m)) eqn:V; [|done]. assert (Eg : get_gvk m = x) by exact (f_equal fst E). rewrite Eg.
  constructor; [|done]. by apply writable_stored.
Qed.
Lemma stays_update old m f x i : writable m -> source_id m = (x, i) -> (forall r, stays x (at_key i) (f r)) -> stays x (at_key i) (c_update hash old m f).
Proof.
  intros W E F. unfold c_update. rewrite stamp_gvk. destruct (is_view_kind (get_gvk m)) eqn:V; [|done]. destruct (obj_equal _ _); [done|].
  assert (Eg : get_gvk m = x) by exact (f_equal fst E). rewrite Eg. constructor; [|done]. by apply writable_stored.
Qed.
Lemma stays_delete m f x i : source_id m = (x, i) -> (forall r, stays x (at_key i) (f r)) -> stays x (at_key i) (c_delete m f).
Proof.
  intros E F. unfold c_delete. assert (Eg : get_gvk m = x) by exact (f_equal fst E). assert (Ei : obj_id m = i) by exact (f_equal snd E). rewrite Eg.
  destruct (is_view_kind x); [|done]. rewrite store_key_skey, Ei. constructor. intros [e|] Fe; [|done]. cbn in Fe. assert (Ek := so_key _ _ _ _ Fe). rewrite Ek. by constructor.
Qed.
Lemma stays_get x i f : (forall e, found_ok hash x (at_key i) e -> stays x (at_key i) (f e)) -> stays x (at_key i) (c_get x i.1 i.2 f).
Proof.
  intros F. unfold c_get. destruct (is_view_kind x); [|by apply F]. constructor. intros [e|] Fe; apply F; [|done]. cbn in *. assert (Ec := so_copy _ _ _ _ Fe). by rewrite Ec.
Qed.
Lemma stays_current m x i f : own_kind (get_gvk m) -> source_id m = (x, i) -> (forall e, found_ok hash x (at_key i) e -> stays x (at_key i) (f e)) -> stays x (at_key i) (c_current m f).
Proof.
  intros O E F. unfold c_current. rewrite own_current by done. assert (Eg : get_gvk m = x) by exact (f_equal fst E). assert (Ei : obj_id m = i) by exact (f_equal snd E).
  rewrite Eg. apply (stays_get x i f) in F. by rewrite <- Ei in F at 2 3.
Qed.
Lemma stays_cl_update m f x i : writable m -> own_kind (get_gvk m) -> source_id m = (x, i) -> (forall r, stays x (at_key i) (f r)) -> stays x (at_key i) (c_cl_update hash m f).
Proof.
  intros W O E F. unfold c_cl_update. apply stays_current; [done..|]. intros [old|] Fe; [|done]. destruct (obj_equal old m); [done|]. by apply stays_update.
Qed.
Lemma stored_source x i m : plain i -> stored_ok x (at_key i) m -> source_id m = (x, i).
Proof.
  intros Hp []. unfold source_id. rewrite so_gvk. f_equal. unfold at_key in so_key. rewrite store_key_skey in so_key. by apply skey_inj in so_key.
Qed.
Lemma stays_patch m p f x i : op_ok (VPatch m p) -> source_id m = (x, i) -> (forall r, stays x (at_key i) (f r)) -> stays x (at_key i) (c_patch hash m p f).
Proof.
  intros (Hp & K & Wp & Np & Kp) E F. unfold c_patch. apply stays_current; [done..|]. intros [old|] Fe; [|done]. cbn in Fe.
  assert (Ei : obj_id m = i) by exact (f_equal snd E). rewrite Ei in Hp. assert (Es := stored_source _ _ _ Hp Fe).
  unfold patch_object. destruct (patch (JMap old) (JMap p)) as [| | | | | |new] eqn:En; try done. destruct Fe.
  assert (Hi := patch_identity old p new so_owf Wp Kp En). rewrite Es in Hi. apply stays_update; [|done..]. split_and!.
  - unfold owf. rewrite <- En. by apply patch_wf.
  - rewrite <- En. by apply patch_nnz.
  - assert (Ej : obj_id new = i) by exact (f_equal snd Hi). by rewrite Ej.
Qed.
Lemma stays_set_sub old sub v f x i : own_kind x -> plain i -> stored_ok x (at_key i) old -> sub_name sub -> jwf v -> nonegzero v -> (forall r, stays x (at_key i) (f r)) ->
  stays x (at_key i) (c_cl_update hash (mset old sub v) f).
Proof.
  intros K Hp Fe Sn Wv Nv F. assert (Es := stored_source _ _ _ Hp Fe). destruct Fe.
  assert (Hi : source_id (mset old sub v) = (x, i)).
  { destruct Sn as (S1 & S2 & S3). rewrite <- Es. unfold source_id, obj_id, get_namespace, get_name, get_gvk, get_api_version, get_kind, nested_str. cbn [nested_get].
    by rewrite !mget_set_ne by congruence. }
  assert (Eg : get_gvk (mset old sub v) = x) by exact (f_equal fst Hi). assert (Ei : obj_id (mset old sub v) = i) by exact (f_equal snd Hi).
  apply stays_cl_update; [|by rewrite Eg|done|done]. split_and!; [by apply owf_set|apply nnz_set; [by apply owf_sorted|done..]|by rewrite Ei].
Qed.
Lemma stays_write o f : op_ok o -> collective (Write o) = false -> let '(x, i) := subject (Write o) in (forall r, stays x (at_key i) (f r)) -> stays x (at_key i) (c_write hash o f).
Proof.
  intros O C. destruct (subject (Write o)) as [x i] eqn:E. intros F. destruct o as [m|m|m p|m|m s|sub m|sub m s]; cbn [c_write]; cbn [subject] in E; try done.
  - by apply stays_add.
  - destruct O. by apply stays_cl_update.
  - by apply stays_patch.
  - by apply stays_delete.
  - destruct O as ((W & N & Hp) & K & Sn). unfold c_sub_update. apply stays_current; [done..|]. intros [old|] Fe; [|done].
    destruct (mget m sub) as [[| | | | | |v]|] eqn:Ev; try done. destruct (match mget old sub with Some (JMap w) => _ | _ => _ end); [done|].
    assert (Eg : get_gvk m = x) by exact (f_equal fst E). assert (Ei : obj_id m = i) by exact (f_equal snd E). rewrite Eg in K. rewrite Ei in Hp.
    apply stays_set_sub; try done; [exact (owf_get _ _ _ W Ev)|exact (nnz_get _ _ _ N Ev)].
  - destruct O as (Hp & K & W & N & Sn). unfold c_sub_create. destruct (mget s sub) as [[| | | | | |v]|] eqn:Ev; try done.
    apply stays_current; [done..|]. intros [old|] Fe; [|done].
    assert (Eg : get_gvk m = x) by exact (f_equal fst E). assert (Ei : obj_id m = i) by exact (f_equal snd E). rewrite Eg in K. rewrite Ei in Hp.
    apply stays_set_sub; try done; [exact (owf_get _ _ _ W Ev)|exact (nnz_get _ _ _ N Ev)].
Qed.
Lemma stays_st_get x ns name f : (forall r, match r with SObject m => stored_ok x (skey (default EmptyString ns) name) m | _ => True end -> stays x (skey (default EmptyString ns) name) (f r)) ->
  stays x (skey (default EmptyString ns) name) (c_st_get x true ns name f).
Proof.
  intros F. unfold c_st_get. destruct ns as [ns|]; [|by apply F]. cbn [st_key fmap option_fmap option_map default fst snd] in *.
  apply (stays_get x (ns, name)). intros [e|] Fe; by apply F.
Qed.
Lemma stays_st_create x ns m v f : own_kind x -> gvk_ok x -> sendable m -> plain (default EmptyString ns, get_name m) -> (forall r, stays x (skey (default EmptyString ns) (get_name m)) (f r)) ->
  stays x (skey (default EmptyString ns) (get_name m)) (c_st_create hash x true ns m v f).
Proof.
  intros O G S Hp F. unfold c_st_create. destruct (v m); [|done]. destruct ns as [ns|]; [|apply F]. cbn [fmap option_fmap option_map default] in *. fold (placed x ns m).
  apply (stays_add (placed x ns m) _ x (ns, get_name m)); [| |intros r; apply F].
  - destruct S as (S1 & S2 & S3). split_and!; [by apply placed_owf|by apply placed_nnz|]. rewrite placed_id by done. done.
  - unfold source_id. rewrite placed_id by done. f_equal. by apply placed_gvk.
Qed.
Lemma stays_serve x r f : own_kind x -> gvk_ok x -> request_ok r -> names (subject (Api x r)) (Api x r) = true ->
  let '(x, i) := subject (Api x r) in (forall p, stays x (at_key i) (f p)) -> stays x (at_key i) (c_serve hash x true r f).
Proof.
  intros O G R N. destruct r as [ns name| |ns m v o|ns name upd vn v force o|ns name v o|]; try done; cbn [subject]; unfold at_key; cbn [fst snd]; intros F; cbn [c_serve].
  - apply stays_st_get. intros; apply F.
  - destruct R as [S Hp]. by apply stays_st_create.
  - destruct R as [Hp Hu]. apply stays_st_get. intros [cur| | | | | |] Fe; try apply F.
    + destruct (upd (Some cur)) as [m|] eqn:Eu; [|apply F]. destruct (v m cur); [|apply F]. assert (Es := stored_source x (default EmptyString ns, name) _ Hp Fe).
      assert (Ec : obj_id cur = (default EmptyString ns, name)) by exact (f_equal snd Es). destruct Fe.
      destruct (Hu (Some cur) m) as [S I]; [done|done|].
      apply (stays_cl_update (set_gvk m x) _ x (default EmptyString ns, name)).
      * destruct S as (S1 & S2 & S3). split_and!; [by apply set_gvk_owf|by apply set_gvk_nnz|]. rewrite set_gvk_id, I. done.
      * by rewrite (set_gvk_gvk x G).
      * unfold source_id. by rewrite (set_gvk_gvk x G), set_gvk_id, I.
      * intros; apply F.
    + destruct force; [|apply F]. destruct (upd None) as [m|] eqn:Eu; [|apply F]. destruct (Hu None m I Eu) as [S I'].
      assert (En : get_name m = name) by exact (f_equal snd I'). rewrite <- En in F, Hp |- *. by apply stays_st_create.
  - apply stays_st_get. intros [cur| | | | | |] Fe; try apply F. destruct (v cur); [|apply F].
    apply (stays_delete cur _ x (default EmptyString ns, name)); [by apply stored_source|]. intros; apply F.
Qed.
Lemma stays_begin o a : sact_ok a -> names o a = true -> stays o.1 (at_key o.2) (begin hash a).
Proof.
  intros A N. unfold names in N. apply andb_true_iff in N as [N E]. apply bool_decide_eq_true in E. subst o. apply andb_true_iff in N as [N1 N2]. apply negb_true_iff in N1.
  destruct a as [x r|w].
  - destruct A as (O & G & R). assert (S := stays_serve x r (fun p => Return (Reply p)) O G R). assert (Nm : names (subject (Api x r)) (Api x r) = true).
    { unfold names. rewrite N1, bool_decide_true by done. by rewrite N2. }
    specialize (S Nm). destruct (subject (Api x r)) as [y i] eqn:Es. cbn [begin fst snd]. assert (y = x) as -> by (by destruct r; injection Es).
    apply S. intros; constructor.
  - assert (S := stays_write w (fun r => Return (Wrote r)) A N1). destruct (subject (Write w)) as [y i]. apply S. intros; constructor.
Qed.

(** Accesses. *)
Lemma once_cl_update n m f : (forall r, exists x, f r = Return x) -> once (S (S n)) (c_cl_update hash m f).
Proof.
  intros F. assert (K : forall n r, once n (f r)) by (intros k r; destruct (F r) as [y ->]; constructor). unfold c_cl_update, c_current, c_get. destruct (is_view_kind _); [|apply K].
  constructor. intros e. destruct (obj_copy <$> e); [|apply K]. destruct (obj_equal _ _); [apply K|]. unfold c_update. destruct (is_view_kind _); [|apply K].
  destruct (obj_equal _ _); [apply K|]. destruct (F VOk) as [y ->]. constructor.
Qed.
Lemma once_begin a : collective a = false -> once (if reading a || posting a then 1 else 3) (begin hash a).
Proof.
  intros C. destruct a as [x [ns name|ns labels fields|ns m v o|ns name upd vn v force o|ns name v o|]|[m|m|m p|m| |sub m|sub m s]]; try done; cbn [reading posting orb begin c_serve c_write].
  - unfold c_st_get. destruct (st_key true ns name); [|constructor]. unfold c_get. destruct (is_view_kind x); [|constructor]. constructor. intros. constructor.
  - unfold c_list. constructor. intros. constructor.
  - unfold c_st_create. destruct (v m); [|constructor]. destruct ns; [|constructor]. cbn. unfold c_add. destruct (is_view_kind _); constructor.
  - unfold c_st_update, c_st_get. destruct (st_key true ns name); [|constructor]. unfold c_get.
    assert (K : forall n c, once (S (S n)) (match c with Some m => match upd (Some m) with None => Return (Reply SRefused)
      | Some m' => if v m' m then c_cl_update hash (set_gvk m' x) (fun r => Return (Reply match r with VOk => SObject (set_gvk m' x) | _ => SInternal end)) else Return (Reply SRefused) end
      | None => if force then match upd None with None => Return (Reply SRefused) | Some m => c_st_create hash x true ns m vn (fun p => Return (Reply p)) end else Return (Reply SNotFound) end)).
    { intros n [cur|].
      - destruct (upd (Some cur)) as [m|]; [|constructor]. destruct (v m cur); [|constructor]. apply once_cl_update. eauto.
      - destruct force; [|constructor]. destruct (upd None) as [m|]; [|constructor]. unfold c_st_create. destruct (vn m); [|constructor]. destruct ns; [|constructor]. cbn.
        unfold c_add. destruct (is_view_kind _); constructor. }
    destruct (is_view_kind x).
    + constructor. intros e. specialize (K 0%nat (obj_copy <$> e)). by destruct (obj_copy <$> e).
    + exact (K 1%nat None).
  - unfold c_st_delete, c_st_get. destruct (st_key true ns name); [|constructor]. unfold c_get. destruct (is_view_kind x); [|constructor]. constructor. intros e.
    destruct (obj_copy <$> e) as [m|]; [|constructor]. destruct (v m); [|constructor]. unfold c_delete. destruct (is_view_kind _); [|constructor]. constructor. intros [e'|]; constructor.
  - unfold c_add. destruct (is_view_kind _); constructor.
  - apply once_cl_update. eauto.
  - unfold c_patch, c_current, c_get. destruct (is_view_kind _); [|constructor]. constructor. intros e. destruct (obj_copy <$> e) as [old|]; [|constructor].
    destruct (patch_object _ _) as [new|]; [|constructor]. unfold c_update. destruct (is_view_kind _); [|constructor]. destruct (obj_equal _ _); constructor.
  - unfold c_delete. destruct (is_view_kind _); [|constructor]. constructor. intros [e'|]; constructor.
  - unfold c_sub_update, c_current, c_get. destruct (is_view_kind _); [|constructor]. constructor. intros e. destruct (obj_copy <$> e) as [old|]; [|constructor].
    destruct (mget m sub) as [[]|]; try constructor. destruct (match mget old sub with Some (JMap w) => _ | _ => _ end); [constructor|]. apply once_cl_update. eauto.
  - unfold c_sub_create. destruct (mget s sub) as [[]|]; try constructor. unfold c_current, c_get. destruct (is_view_kind _); [|constructor]. constructor. intros e.
    destruct (obj_copy <$> e) as [old|]; [|constructor]. apply once_cl_update. eauto.
Qed.
End footprint.
