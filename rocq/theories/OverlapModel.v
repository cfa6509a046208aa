(** Model of calls on the view cache that overlap: requests to the API server
    (pkg/apiserver/storage.go) and writes by pipelines (pkg/cache/view_client.go).

    The store of a kind locks each of its methods (client-go's ThreadSafeMap); nothing
    holds a lock from one of them to the next.  So a call is a sequence of accesses to the
    stores, and the accesses of different calls interleave in any way.  What a call does is
    as in StorageModel.v and ViewModel.v, where nothing comes between.  The events that a
    call triggers after its access are left out: how they arrive is C31. *)
From Verif Require Export StorageModel.

(** What is left of a call: it returns, or looks up, lists, stores or removes something
    and goes on with what it got. *)
Inductive call :=
  | Return (r : sresult)
  | Fetch (x : gvk) (k : string) (f : option jobj -> call)
  | Scan (x : gvk) (f : list jobj -> call)
  | Store (x : gvk) (m : jobj) (f : call)
  | Erase (x : gvk) (k : string) (f : call).

Section calls.
Variable hash : string -> string.
Notation stamp := (stamp hash).

(** view_cache.go:236-280 Add; the access is 258. *)
Definition c_add (m : jobj) (f : vresult -> call) : call :=
  let x := get_gvk m in if is_view_kind x then Store x (stamp m) (f VOk) else f VInvalid.
(** view_cache.go:283-331 Update; the access is 309. *)
Definition c_update (old new : jobj) (f : vresult -> call) : call :=
  let new := stamp new in
  let x := get_gvk new in
  if is_view_kind x then if obj_equal old new then f VOk else Store x new (f VOk) else f VInvalid.
(** view_cache.go:334-392 Delete; the accesses are 359 and 370. *)
Definition c_delete (m : jobj) (f : vresult -> call) : call :=
  let x := get_gvk m in
  if is_view_kind x then
    Fetch x (store_key m) (fun e => match e with None => f VNotFound | Some e => Erase x (store_key e) (f VOk) end)
  else f VInvalid.
(** view_cache.go:402-438 Get; the access is 423. *)
Definition c_get (x : gvk) (ns name : string) (f : option jobj -> call) : call :=
  if is_view_kind x then Fetch x (skey ns name) (fun e => f (obj_copy <$> e)) else f None.
(** view_cache.go:441-506 List; the access is 478. *)
Definition c_list (x : gvk) (s : selection) (f : list jobj -> call) : call :=
  Scan (object_gvk x) (fun l => f (map obj_copy (List.filter (selects s) l))).

(** view_client.go:86-92, 113-117 *)
Definition c_current (m : jobj) (f : option jobj -> call) : call :=
  c_get (view_gvk (get_operator (get_gvk m)) (get_kind m)) (get_namespace m) (get_name m) f.
(** view_client.go:79-104 Update *)
Definition c_cl_update (m : jobj) (f : vresult -> call) : call :=
  c_current m (fun cur => match cur with None => f VNotFound | Some old => if obj_equal old m then f VOk else c_update old m f end).
(** view_client.go:107-136 Patch *)
Definition c_patch (m p : jobj) (f : vresult -> call) : call :=
  c_current m (fun cur =>
    match cur with
    | None => f VNotFound
    | Some old => match patch_object old p with Some new => c_update old new f | None => f VInvalid end
    end).
(** view_client.go:139-176 DeleteAllOf *)
Fixpoint c_delete_items (l : list jobj) (f : vresult -> call) : call :=
  match l with
  | [] => f VOk
  | m :: l => c_delete m (fun r => match r with VOk => c_delete_items l f | _ => f r end)
  end.
Definition c_delete_all (m : jobj) (s : selection) (f : vresult -> call) : call :=
  c_list (list_gvk (view_gvk (get_operator (get_gvk m)) (get_kind m))) s (fun l => c_delete_items l f).
(** view_client.go:294-326, sub-resource Update *)
Definition c_sub_update (sub : string) (m : jobj) (f : vresult -> call) : call :=
  c_current m (fun cur =>
    match cur with
    | None => f VNotFound
    | Some old =>
        match mget m sub with
        | Some (JMap v) =>
            if match mget old sub with Some (JMap w) => go_equal (JMap w) (JMap v) | _ => false end then f VOk
            else c_cl_update (mset old sub (JMap v)) f
        | _ => f VInvalid
        end
    end).
(** view_client.go:263-291, sub-resource Create *)
Definition c_sub_create (sub : string) (m s : jobj) (f : vresult -> call) : call :=
  match mget s sub with
  | Some (JMap v) => c_current m (fun cur => match cur with None => f VNotFound | Some old => c_cl_update (mset old sub (JMap v)) f end)
  | _ => f VInvalid
  end.
Definition c_write (o : vop) (f : vresult -> call) : call :=
  match o with
  | VCreate m => c_add m f
  | VUpdate m => c_cl_update m f
  | VPatch m p => c_patch m p f
  | VDelete m => c_delete m f
  | VDeleteAll m s => c_delete_all m s f
  | VSubUpdate sub m => c_sub_update sub m f
  | VSubCreate sub m s => c_sub_create sub m s f
  end.

Section storage.
Variable x : gvk.
Variable namespaced : bool.
(** storage.go:70-94 Get *)
Definition c_st_get (ns : option string) (name : string) (f : sreply -> call) : call :=
  match st_key namespaced ns name with
  | None => f SBadRequest
  | Some k => c_get x k.1 k.2 (fun cur => f (match cur with Some m => SObject m | None => SNotFound end))
  end.
(** storage.go:146-181 Create *)
Definition c_st_create (ns : option string) (m : jobj) (valid : jobj -> bool) (f : sreply -> call) : call :=
  if valid m then
    let m := set_gvk m x in
    match (if namespaced then set_namespace m <$> ns else Some m) with
    | None => f SBadRequest
    | Some m => c_add m (fun r => f (match r with VOk => SObject m | _ => SInternal end))
    end
  else f SRefused.
(** storage.go:186-230 Update: Get, then the client's Update, which gets the object again. *)
Definition c_st_update (ns : option string) (name : string) (upd : option jobj -> option jobj)
    (valid_new : jobj -> bool) (valid : jobj -> jobj -> bool) (force : bool) (f : sreply -> call) : call :=
  c_st_get ns name (fun r =>
    match r with
    | SObject cur =>
        match upd (Some cur) with
        | None => f SRefused
        | Some m =>
            if valid m cur then
              let m := set_gvk m x in c_cl_update m (fun r => f (match r with VOk => SObject m | _ => SInternal end))
            else f SRefused
        end
    | SNotFound =>
        if force then match upd None with None => f SRefused | Some m => c_st_create ns m valid_new f end
        else f SNotFound
    | r => f r
    end).
(** storage.go:235-261 Delete: Get, then the cache's Delete, which gets the object again. *)
Definition c_st_delete (ns : option string) (name : string) (valid : jobj -> bool) (f : sreply -> call) : call :=
  c_st_get ns name (fun r =>
    match r with
    | SObject m =>
        if valid m then c_delete m (fun r => f (match r with VOk => SGone m | VNotFound => SNotFound | VInvalid => SInternal end))
        else f SRefused
    | r => f r
    end).
(** storage.go:266-292 DeleteCollection *)
Fixpoint c_delete_each (valid : jobj -> bool) (l : list jobj) (f : call) : call :=
  match l with
  | [] => f
  | m :: l => if valid m then c_delete m (fun _ => c_delete_each valid l f) else c_delete_each valid l f
  end.
Definition c_serve (r : sreq) (f : sreply -> call) : call :=
  match r with
  | SGet ns name => c_st_get ns name f
  | SList ns labels fields => c_list (st_list_kind x) (st_selection namespaced ns labels fields) (fun l => f (SItems l))
  | SCreate ns m valid _ => c_st_create ns m valid f
  | SUpdate ns name upd valid_new valid force _ => c_st_update ns name upd valid_new valid force f
  | SDelete ns name valid _ => c_st_delete ns name valid f
  | SDeleteAll ns valid labels fields _ =>
      c_list (st_list_kind x) (st_selection namespaced ns labels fields) (fun l => c_delete_each valid l (f (SItems l)))
  end.
End storage.
Definition begin (a : sact) : call :=
  match a with
  | Api x r => c_serve x true r (fun p => Return (Reply p))
  | Write o => c_write o (fun r => Return (Wrote r))
  end.

(** *** Runs *)
Variable lister : store -> list jobj.

(** The caches, the calls that are not over, each with what is left of it, and those that
    are over, in the order in which they made their last access. *)
Record over := Over { o_cache : caches; o_open : gmap nat (sact * call); o_done : list (nat * sact * sresult) }.
Definition over0 : over := Over ∅ ∅ [].
(** One access; thread_safe_store.go of client-go (recalled). *)
Definition access (c : caches) (p : call) : caches * call :=
  match p with
  | Return r => (c, p)
  | Fetch x k f => (c, f (cache_of c x !! k))
  | Scan x f => (c, f (lister (cache_of c x)))
  | Store x m f => (put c x m, f)
  | Erase x k f => (drop_key c x k, f)
  end.
(** A call with nothing left to access is over. *)
Definition settle (i : nat) (a : sact) (c : caches) (p : call) (s : over) : over :=
  match p with
  | Return r => Over c (delete i (o_open s)) (o_done s ++ [(i, a, r)])
  | _ => Over c (<[i := (a, p)]> (o_open s)) (o_done s)
  end.
(** A goroutine begins a call, or makes the next access of its call. *)
Inductive turn := Begin (i : nat) (a : sact) | Go (i : nat).
Definition turn_step (s : over) (t : turn) : option over :=
  match t with
  | Begin i a => match o_open s !! i with None => Some (settle i a (o_cache s) (begin a) s) | Some _ => None end
  | Go i =>
      match o_open s !! i with
      | Some (a, p) => let '(c, p) := access (o_cache s) p in Some (settle i a c p s)
      | None => None
      end
  end.
Definition turns (s : over) (l : list turn) : option over := foldl (fun s t => s ← s; turn_step s t) (Some s) l.
End calls.
