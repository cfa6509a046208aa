(** Model of the view cache: storage and reads (pkg/cache/view_cache.go), the
    client on top of it (pkg/cache/view_client.go), event handlers
    (pkg/cache/view_cache_informer.go) and watches.

    Not modelled: informer transforms, stopping of informers, IndexField, Apply.
    Memory shared with callers and handlers: see AliasModel. *)
From Verif Require Export GroupModel ValueModel PredicateModel.

(** strings.TrimSuffix *)
Definition trim_suffix (suf s : string) : string :=
  if has_suffix suf s then String.substring 0 (String.length s - String.length suf) s else s.

(** *** pkg/cache/view_discovery.go *)

(** view_discovery.go:180-182 IsViewKind *)
Definition is_object_kind (x : gvk) : bool := is_view_kind x && negb (has_suffix "List" (gvk_kind x)).
(** view_discovery.go:190-199 ObjectGVKFromListGVK *)
Definition object_gvk (x : gvk) : gvk :=
  if is_view_kind x && has_suffix "List" (gvk_kind x) then GVK (gvk_group x) (gvk_version x) (trim_suffix "List" (gvk_kind x)) else x.
(** view_discovery.go:202-211 ListGVKFromObjectGVK; util.go:14-21 NewViewObjectList *)
Definition list_gvk (x : gvk) : gvk :=
  if is_object_kind x then GVK (gvk_group x) (gvk_version x) (gvk_kind x +:+ "List") else x.

(** *** Selections: view_cache.go:457-478 (List), 559-578 (Watch) *)

(** The options of a List or Watch: a namespace ("" for all), a label selector
    and a field selector (apimachinery, any function of the labels and of the
    fields).  When an option is given several times the last one counts. *)
Record selection := Selection {
  sel_ns : string;
  sel_labels : option (option (list (string * string)) -> bool);
  sel_fields : option (list (string * string) -> bool) }.
(** view_cache.go:509-526 matchesFieldSelector, and 690-707 (the same code) *)
Definition field_set (m : jobj) : list (string * string) :=
  [("metadata.name"%string, get_name m); ("metadata.namespace"%string, get_namespace m)]
  ++ match nested_get m ["status"; "phase"] with Some (JStr s) => [("status.phase"%string, s)] | _ => [] end
  ++ match nested_get m ["status"; "ready"] with Some (JBool b) => [("status.ready"%string, if b then "true"%string else "false"%string)] | _ => [] end.
(** view_cache.go:489-501 (List), 664-687 shouldIncludeObject (Watch) *)
Definition selects (s : selection) (m : jobj) : bool :=
  (String.eqb (sel_ns s) "" || String.eqb (get_namespace m) (sel_ns s))
  && match sel_labels s with None => true | Some f => f (get_labels m) end
  && match sel_fields s with None => true | Some f => f (field_set m) end.

(** *** Storage *)

(** view_cache.go:46-61: one store for each kind, made when first used (90-113). *)
Notation caches := (gmap gvk store).
Definition cache_of (c : caches) (x : gvk) : store := default ∅ (c !! x).
(** client-go Indexer.Add and Update do not copy. *)
Definition put (c : caches) (x : gvk) (m : jobj) : caches := <[x := <[store_key m := m]> (cache_of c x)]> c.
Definition drop_key (c : caches) (x : gvk) (k : string) : caches := <[x := delete k (cache_of c x)]> c.

Inductive vresult := VOk | VNotFound | VInvalid.
#[global] Instance vresult_eq : EqDecision vresult.
Proof. solve_decision. Defined.
(** The caches after a call, the events it triggers on the informers of a kind,
    and what it returns. *)
Notation outcome := (caches * list (gvk * wevent) * vresult)%type.

Section view.
(** The hash of a UID (uid.go). *)
Variable hash : string -> string.
(** The order in which a store lists its objects (client-go: map iteration). *)
Variable lister : store -> list jobj.

(** view_cache.go:250-254, 285-289: the copy of the object that gets stored. *)
Definition stamp (m : jobj) : jobj := with_uid hash (obj_copy m).
(** view_cache.go:236-280 Add *)
Definition vc_add (c : caches) (m : jobj) : outcome :=
  let x := get_gvk m in
  if is_view_kind x then (put c x (stamp m), [(x, WCreate (stamp m))], VOk) else (c, [], VInvalid).
(** view_cache.go:283-331 Update *)
Definition vc_update (c : caches) (old new : jobj) : outcome :=
  let new := stamp new in
  let x := get_gvk new in
  if is_view_kind x then
    if obj_equal old new then (c, [], VOk)
    else (put c x new, [(x, WUpdate (Some old) (Some new))], VOk)
  else (c, [], VInvalid).
(** view_cache.go:334-392 Delete *)
Definition vc_delete (c : caches) (m : jobj) : outcome :=
  let x := get_gvk m in
  if is_view_kind x then
    match cache_of c x !! store_key m with
    | None => (c, [], VNotFound)
    | Some e => (drop_key c x (store_key e), [(x, WDelete e)], VOk)
    end
  else (c, [], VInvalid).
(** view_cache.go:402-438 Get; [None] is NotFound *)
Definition vc_get (c : caches) (x : gvk) (ns name : string) : option jobj :=
  if is_view_kind x then obj_copy <$> cache_of c x !! skey ns name else None.
(** view_cache.go:441-506 List, for a list of kind [x] *)
Definition vc_list (c : caches) (x : gvk) (s : selection) : list jobj :=
  map obj_copy (List.filter (selects s) (lister (cache_of c (object_gvk x)))).

(** *** The client *)

(** view_client.go:86-92, 113-117: the current version of an object, looked up
    under a kind that is rebuilt from the operator and the kind. *)
Definition current (c : caches) (m : jobj) : option jobj :=
  vc_get c (view_gvk (get_operator (get_gvk m)) (get_kind m)) (get_namespace m) (get_name m).
(** view_client.go:79-104 Update *)
Definition cl_update (c : caches) (m : jobj) : outcome :=
  match current c m with
  | None => (c, [], VNotFound)
  | Some old => if obj_equal old m then (c, [], VOk) else vc_update c old m
  end.
(** view_client.go:107-136 Patch, for a patch with the given content *)
Definition cl_patch (c : caches) (m p : jobj) : outcome :=
  match current c m with
  | None => (c, [], VNotFound)
  | Some old => match patch_object old p with Some new => vc_update c old new | None => (c, [], VInvalid) end
  end.
(** view_client.go:139-176 DeleteAllOf: list and delete *)
Fixpoint delete_items (c : caches) (l : list jobj) : outcome :=
  match l with
  | [] => (c, [], VOk)
  | m :: l =>
      match vc_delete c m with
      | (c1, es, VOk) => let '(c2, es', r) := delete_items c1 l in (c2, es ++ es', r)
      | (c1, es, r) => (c1, es, r)
      end
  end.
Definition cl_delete_all (c : caches) (m : jobj) (s : selection) : outcome :=
  delete_items c (vc_list c (list_gvk (view_gvk (get_operator (get_gvk m)) (get_kind m))) s).
(** view_client.go:294-326, sub-resource Update *)
Definition cl_sub_update (c : caches) (sub : string) (m : jobj) : outcome :=
  match current c m with
  | None => (c, [], VNotFound)
  | Some old =>
      match mget m sub with
      | Some (JMap v) =>
          if match mget old sub with Some (JMap w) => go_equal (JMap w) (JMap v) | _ => false end then (c, [], VOk)
          else cl_update c (mset old sub (JMap v))
      | _ => (c, [], VInvalid)
      end
  end.
(** view_client.go:263-291, sub-resource Create, with the content in [s] *)
Definition cl_sub_create (c : caches) (sub : string) (m s : jobj) : outcome :=
  match mget s sub with
  | Some (JMap v) =>
      match current c m with
      | None => (c, [], VNotFound)
      | Some old => cl_update c (mset old sub (JMap v))
      end
  | _ => (c, [], VInvalid)
  end.

(** The writes of a client. *)
Inductive vop :=
  | VCreate (m : jobj) | VUpdate (m : jobj) | VPatch (m p : jobj) | VDelete (m : jobj)
  | VDeleteAll (m : jobj) (s : selection) | VSubUpdate (sub : string) (m : jobj) | VSubCreate (sub : string) (m s : jobj).
Definition vstep (c : caches) (o : vop) : outcome :=
  match o with
  | VCreate m => vc_add c m
  | VUpdate m => cl_update c m
  | VPatch m p => cl_patch c m p
  | VDelete m => vc_delete c m
  | VDeleteAll m s => cl_delete_all c m s
  | VSubUpdate sub m => cl_sub_update c sub m
  | VSubCreate sub m s => cl_sub_create c sub m s
  end.

(** *** Handlers *)

(** view_cache_informer.go:176-185: each handler gets its own copy. *)
Definition copied (e : wevent) : wevent :=
  match e with
  | WCreate m => WCreate (obj_copy m)
  | WUpdate old new => WUpdate old (obj_copy <$> new)
  | WDelete m => WDelete (obj_copy m)
  | WGeneric m => WGeneric m
  end.
(** The caches, the counter for handlers, the kind that each registered handler
    listens to and the events that each handler has got.  The shared informer
    of a kind and those of the delegating caches (view_cache.go:265-279,
    delegating_view_cache.go:96-127) all list the same store and get the same
    events, so it does not matter to which one a handler belongs (C57_as_alone). *)
Record vsys := Vsys { vs_cache : caches; vs_next : nat; vs_handlers : gmap nat gvk; vs_log : nat -> list wevent }.
Definition vsys0 : vsys := Vsys ∅ 0 ∅ (fun _ => []).
(** view_cache_informer.go:139-190 TriggerEvent, on all handlers *)
Definition deliver (hs : gmap nat gvk) (log : nat -> list wevent) (es : list (gvk * wevent)) : nat -> list wevent := fun i =>
  match hs !! i with
  | Some x => log i ++ map (fun e => copied e.2) (List.filter (fun e => bool_decide (e.1 = x)) es)
  | None => log i
  end.
Inductive vact := Do (o : vop) | Listen (x : gvk) | Leave (i : nat).
(** [Listen]: view_cache_informer.go:61-105 AddEventHandler; [Leave]: 123-134
    RemoveEventHandler.  Calls do not overlap here. *)
Definition vact_step (s : vsys) (a : vact) : vsys :=
  match a with
  | Do o =>
      let '(c, es, _) := vstep (vs_cache s) o in
      Vsys c (vs_next s) (vs_handlers s) (deliver (vs_handlers s) (vs_log s) es)
  | Listen x =>
      if is_view_kind x then
        let i := vs_next s in
        Vsys (vs_cache s) (S i) (<[i := x]> (vs_handlers s))
          (fun j => if decide (j = i) then map (fun m => WCreate (obj_copy m)) (lister (cache_of (vs_cache s) x)) else vs_log s j)
      else s
  | Leave i => Vsys (vs_cache s) (vs_next s) (delete i (vs_handlers s)) (vs_log s)
  end.
Definition vact_run (s : vsys) (l : list vact) : vsys := foldl vact_step s l.

(** *** Watches *)

(** view_cache.go:590-610: the events that a watch sends. *)
Definition watched (s : selection) (es : list wevent) : list wevent := List.filter (p_funcs (selects s)) es.
(** view_cache.go:710-734 sendEvent with a channel of the given size: [Send] is an
    event, which waits in the channel, or is dropped if there is no room within
    a second; [Recv] is the reader taking one. *)
Inductive wact := Send (e : wevent) | Recv.
Definition watch_step (cap : nat) (st : list wevent * list wevent) (a : wact) : list wevent * list wevent :=
  match a with
  | Send e => if (length st.1 <? cap)%nat then (st.1 ++ [e], st.2) else st
  | Recv => match st.1 with e :: q => (q, st.2 ++ [e]) | [] => st end
  end.
Definition watch_run (cap : nat) (l : list wact) : list wevent * list wevent := foldl (watch_step cap) ([], []) l.
(** view_cache.go:28 DefaultWatchChannelBuffer *)
Definition watch_buffer : nat := 256.

(** *** Overlapping calls *)

(** One kind, one handler and any number of callers.  A caller writes the store
    and triggers the event later; Delete looks the object up, removes it and
    triggers the event; AddEventHandler registers the handler, lists the store
    and hands the objects over one by one.  The store locks each of its methods
    and TriggerEvent holds the lock of the handlers; nothing holds a lock across
    two of these steps. *)
Inductive pend := PRemove (m : jobj) | PTrigger (e : wevent).
Record race := Race { r_cache : store; r_open : list pend; r_reg : bool; r_replay : option (list jobj); r_log : list wevent }.
Definition race0 (s : store) : race := Race s [] false None [].
Inductive choice :=
  | RAdd (m : jobj) | RUpdate (old m : jobj) | RFind (m : jobj)   (* a new call: Add, Update, Delete *)
  | RTick (n : nat)                                              (* the next step of an open call *)
  | RRegister | RList | RReplay.                                 (* AddEventHandler *)
Definition drop_nth {A} (n : nat) (l : list A) : list A := take n l ++ drop (S n) l.
Definition rstep (r : race) (a : choice) : option race :=
  let '(Race s o reg rep log) := r in
  match a with
  | RAdd m => Some (Race (<[store_key (stamp m) := stamp m]> s) (o ++ [PTrigger (WCreate (stamp m))]) reg rep log)
  | RUpdate old m =>
      if obj_equal old (stamp m) then Some r
      else Some (Race (<[store_key (stamp m) := stamp m]> s) (o ++ [PTrigger (WUpdate (Some old) (Some (stamp m)))]) reg rep log)
  | RFind m =>
      match s !! store_key m with
      | Some e => Some (Race s (o ++ [PRemove e]) reg rep log)
      | None => Some r
      end
  | RTick n =>
      match o !! n with
      | Some (PRemove e) => Some (Race (delete (store_key e) s) (<[n := PTrigger (WDelete e)]> o) reg rep log)
      | Some (PTrigger e) => Some (Race s (drop_nth n o) reg rep (if reg then log ++ [copied e] else log))
      | None => None
      end
  | RRegister => if reg then None else Some (Race s o true rep log)
  | RList => match rep with None => if reg then Some (Race s o reg (Some (lister s)) log) else None | Some _ => None end
  | RReplay =>
      match rep with
      | Some (m :: l) => Some (Race s o reg (Some l) (log ++ [WCreate (obj_copy m)]))
      | _ => None
      end
  end.
Definition rrun (r : race) (l : list choice) : option race := foldl (fun r a => r' ← r; rstep r' a) (Some r) l.
End view.
