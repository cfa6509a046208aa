(** Model of the view cache on memory: which objects pkg/cache/view_cache.go, view_client.go
    and view_cache_informer.go copy, keep and hand out.

    An object is a cell of memory, a Go pointer is its address.  Whoever has got an address
    may overwrite the object at any time.  Maps and lists inside objects are not cells of
    their own: object.DeepCopy (pkg/object/object.go:92-110) copies all of them, so a copy
    shares nothing, and objects of a caller that share a part are overwritten one after
    the other.

    Simplifications: calls do not overlap (but handlers may write while they are called); a
    copy that is modified before anybody else gets it is made with its final value; copies of
    copies are made once; handlers are called in a fixed order (Go: map iteration); informer
    transforms are left out. *)
From Verif Require Export ViewModel.

Inductive user := Caller (n : nat) | Handler (i : nat).
#[global] Instance user_eq : EqDecision user.
Proof. solve_decision. Defined.
(** What a handler gets: addresses. *)
Inductive mevent := MAdd (a : nat) | MUpd (old new : nat) | MDel (a : nat).
(** Memory, the stores (client-go indexers, which keep the pointer that they get), the
    handlers as in ViewModel, and who has got which address. *)
Record msys := Msys {
  ms_mem : list jobj; ms_store : gmap gvk (gmap string nat);
  ms_next : nat; ms_handlers : gmap nat gvk; ms_log : nat -> list mevent;
  ms_held : list (user * nat) }.
Definition msys0 : msys := Msys [] ∅ 0 ∅ (fun _ => []) [].

Section alias.
Variable hash : string -> string.
(** The order in which a store lists its keys (client-go: map iteration). *)
Variable keys : gset string -> list string.
(** What a handler overwrites while it is called. *)
Variable react : nat -> msys -> mevent -> list (nat * jobj).

Definition at_ (s : msys) (a : nat) : jobj := default [] (ms_mem s !! a).
Definition knows (s : msys) (u : user) (a : nat) : bool := bool_decide ((u, a) ∈ ms_held s).
Definition with_mem (s : msys) (m : list jobj) : msys := Msys m (ms_store s) (ms_next s) (ms_handlers s) (ms_log s) (ms_held s).
Definition with_store (s : msys) (st : gmap gvk (gmap string nat)) : msys := Msys (ms_mem s) st (ms_next s) (ms_handlers s) (ms_log s) (ms_held s).
Definition new_obj (s : msys) (m : jobj) : msys * nat := (with_mem s (ms_mem s ++ [m]), length (ms_mem s)).
Definition give (s : msys) (u : user) (a : nat) : msys := Msys (ms_mem s) (ms_store s) (ms_next s) (ms_handlers s) (ms_log s) ((u, a) :: ms_held s).
Definition scribble (u : user) (s : msys) (w : nat * jobj) : msys :=
  if knows s u w.1 then with_mem s (<[w.1 := w.2]> (ms_mem s)) else s.
(** pkg/object/object.go:102-110 DeepCopy *)
Definition copy_obj (s : msys) (a : nat) : msys * nat := new_obj s (obj_copy (at_ s a)).

(** view_cache_informer.go:171-189: the handler gets a copy of the new object and the old
    object itself. *)
Definition told (s : msys) (i : nat) (e : mevent) : msys :=
  Msys (ms_mem s) (ms_store s) (ms_next s) (ms_handlers s) (fun j => if decide (j = i) then ms_log s i ++ [e] else ms_log s j)
    (match e with MAdd a | MDel a => [(Handler i, a)] | MUpd o a => [(Handler i, o); (Handler i, a)] end ++ ms_held s).
Definition notify (e : mevent) (s : msys) (i : nat) : msys :=
  let '(s, e) := match e with
    | MAdd a => let '(s, b) := copy_obj s a in (s, MAdd b)
    | MUpd o a => let '(s, b) := copy_obj s a in (s, MUpd o b)
    | MDel a => let '(s, b) := copy_obj s a in (s, MDel b)
    end in
  let s := told s i e in
  foldl (scribble (Handler i)) s (react i s e).
(** view_cache_informer.go:139-190 TriggerEvent *)
Definition listening (s : msys) (x : gvk) : list nat := map fst (List.filter (fun h => bool_decide (h.2 = x)) (map_to_list (ms_handlers s))).
Definition trigger (s : msys) (x : gvk) (e : mevent) : msys := foldl (notify e) s (listening s x).

Definition m_cache (s : msys) (x : gvk) : gmap string nat := default ∅ (ms_store s !! x).
Definition m_put (s : msys) (x : gvk) (a : nat) : msys := with_store s (<[x := <[store_key (at_ s a) := a]> (m_cache s x)]> (ms_store s)).
Definition m_drop (s : msys) (x : gvk) (k : string) : msys := with_store s (<[x := delete k (m_cache s x)]> (ms_store s)).

(** view_cache.go:236-280 Add *)
Definition m_add (s : msys) (a : nat) : msys * vresult :=
  let x := get_gvk (at_ s a) in
  if is_view_kind x then
    let '(s, b) := new_obj s (stamp hash (at_ s a)) in
    (trigger (m_put s x b) x (MAdd b), VOk)
  else (s, VInvalid).
(** view_cache.go:283-331 Update *)
Definition m_change (s : msys) (old a : nat) : msys * vresult :=
  let '(s, b) := new_obj s (stamp hash (at_ s a)) in
  let x := get_gvk (at_ s b) in
  if is_view_kind x then
    if obj_equal (at_ s old) (at_ s b) then (s, VOk)
    else (trigger (m_put s x b) x (MUpd old b), VOk)
  else (s, VInvalid).
(** view_cache.go:334-392 Delete *)
Definition m_delete (s : msys) (a : nat) : msys * vresult :=
  let x := get_gvk (at_ s a) in
  if is_view_kind x then
    match m_cache s x !! store_key (at_ s a) with
    | None => (s, VNotFound)
    | Some e => (trigger (m_drop s x (store_key (at_ s e))) x (MDel e), VOk)
    end
  else (s, VInvalid).
(** view_cache.go:402-438 Get: a copy *)
Definition m_get (s : msys) (x : gvk) (ns name : string) : msys * option nat :=
  if is_view_kind x then
    match m_cache s x !! skey ns name with
    | Some e => let '(s, b) := copy_obj s e in (s, Some b)
    | None => (s, None)
    end
  else (s, None).
(** view_cache.go:441-506 List, util.go:24-35: copies *)
Definition copy_all (s : msys) (l : list nat) : msys * list nat :=
  foldl (fun '(s, r) a => let '(s, b) := copy_obj s a in (s, r ++ [b])) (s, []) l.
Definition m_items (s : msys) (x : gvk) : list nat := omap (fun k => m_cache s x !! k) (keys (dom (m_cache s x))).
Definition m_list (s : msys) (x : gvk) (sel : selection) : msys * list nat :=
  copy_all s (List.filter (fun a => selects sel (at_ s a)) (m_items s (object_gvk x))).

(** view_client.go:86-92, 113-117: the current object, a copy *)
Definition m_current (s : msys) (m : jobj) : msys * option nat :=
  m_get s (view_gvk (get_operator (get_gvk m)) (get_kind m)) (get_namespace m) (get_name m).
(** view_client.go:79-104 Update *)
Definition m_update (s : msys) (a : nat) : msys * vresult :=
  match m_current s (at_ s a) with
  | (s, None) => (s, VNotFound)
  | (s, Some old) => if obj_equal (at_ s old) (at_ s a) then (s, VOk) else m_change s old a
  end.
(** view_client.go:107-136 Patch *)
Definition m_patch (s : msys) (a : nat) (p : jobj) : msys * vresult :=
  match m_current s (at_ s a) with
  | (s, None) => (s, VNotFound)
  | (s, Some old) =>
      match patch_object (at_ s old) p with
      | Some m => let '(s, b) := new_obj s m in m_change s old b
      | None => (s, VInvalid)
      end
  end.
(** view_client.go:139-176 DeleteAllOf *)
Fixpoint m_delete_items (s : msys) (l : list nat) : msys * vresult :=
  match l with
  | [] => (s, VOk)
  | a :: l => match m_delete s a with (s, VOk) => m_delete_items s l | r => r end
  end.
Definition m_delete_all (s : msys) (a : nat) (sel : selection) : msys * vresult :=
  let '(s', l) := m_list s (list_gvk (view_gvk (get_operator (get_gvk (at_ s a))) (get_kind (at_ s a)))) sel in m_delete_items s' l.
(** view_client.go:294-326, 263-291, sub-resources: the copy gets the new part. *)
Definition m_sub_update (s : msys) (sub : string) (a : nat) : msys * vresult :=
  match m_current s (at_ s a) with
  | (s, None) => (s, VNotFound)
  | (s, Some old) =>
      match mget (at_ s a) sub with
      | Some (JMap v) =>
          if match mget (at_ s old) sub with Some (JMap w) => go_equal (JMap w) (JMap v) | _ => false end then (s, VOk)
          else let '(s, b) := new_obj s (mset (at_ s old) sub (JMap v)) in m_update s b
      | _ => (s, VInvalid)
      end
  end.
Definition m_sub_create (s : msys) (sub : string) (a c : nat) : msys * vresult :=
  match mget (at_ s c) sub with
  | Some (JMap v) =>
      match m_current s (at_ s a) with
      | (s, None) => (s, VNotFound)
      | (s, Some old) => let '(s, b) := new_obj s (mset (at_ s old) sub (JMap v)) in m_update s b
      end
  | _ => (s, VInvalid)
  end.

(** What users do.  Arguments are addresses that they have got; answers are given to them.
    [MPeek] is view_cache_informer.go:193-200 GetStore and GetIndexer, through which a
    handler reaches the stored objects themselves. *)
Inductive mact :=
  | MNew (u : user) (m : jobj) | MScribble (u : user) (a : nat) (m : jobj)
  | MCreate (u : user) (a : nat) | MUpdate (u : user) (a : nat) | MPatch (u : user) (a : nat) (p : jobj) | MDelete (u : user) (a : nat)
  | MDeleteAll (u : user) (a : nat) (sel : selection) | MSubUpdate (u : user) (sub : string) (a : nat) | MSubCreate (u : user) (sub : string) (a c : nat)
  | MGet (u : user) (x : gvk) (ns name : string) | MList (u : user) (x : gvk) (sel : selection)
  | MListen (x : gvk) | MLeave (i : nat) | MPeek (u : user) (x : gvk).
Definition give_all (s : msys) (u : user) (l : list nat) : msys := foldl (fun s a => give s u a) s l.
(** view_cache_informer.go:61-105 AddEventHandler *)
Definition m_listen (s : msys) (x : gvk) : msys :=
  if is_view_kind x then
    let i := ms_next s in
    let s := Msys (ms_mem s) (ms_store s) (S i) (<[i := x]> (ms_handlers s)) (fun j => if decide (j = i) then [] else ms_log s j) (ms_held s) in
    foldl (fun s a => notify (MAdd a) s i) s (m_items s x)
  else s.
Definition mstep (s : msys) (a : mact) : msys * list nat :=
  let call u a (r : msys * vresult) := if knows s u a then (r.1, []) else (s, []) in
  match a with
  | MNew u m => let '(s, b) := new_obj s m in (give s u b, [b])
  | MScribble u a m => (scribble u s (a, m), [])
  | MCreate u a => call u a (m_add s a)
  | MUpdate u a => call u a (m_update s a)
  | MPatch u a p => call u a (m_patch s a p)
  | MDelete u a => call u a (m_delete s a)
  | MDeleteAll u a sel => call u a (m_delete_all s a sel)
  | MSubUpdate u sub a => call u a (m_sub_update s sub a)
  | MSubCreate u sub a c => if knows s u c then call u a (m_sub_create s sub a c) else (s, [])
  | MGet u x ns name => match m_get s x ns name with (s, Some b) => (give s u b, [b]) | (s, None) => (s, []) end
  | MList u x sel => let '(s, l) := m_list s x sel in (give_all s u l, l)
  | MListen x => (m_listen s x, [])
  | MLeave i => (Msys (ms_mem s) (ms_store s) (ms_next s) (delete i (ms_handlers s)) (ms_log s) (ms_held s), [])
  | MPeek u x => (give_all s u (m_items s x), m_items s x)
  end.
Definition mrun (s : msys) (l : list mact) : msys := foldl (fun s a => (mstep s a).1) s l.
End alias.
