(** Model of several operators that share the view cache: the informers of the shared
    storage (pkg/cache/view_cache.go) and of the delegating caches of the operators
    (pkg/cache/delegating_view_cache.go).

    Informers and handlers are numbered in the order in which they are made.  Calls do
    not overlap, except in the last section.  Not modelled: informer transforms, logging,
    IndexField; Start and Run have no effect that can be observed. *)
From Verif Require Export ViewModel.

Record shared := Shared {
  s_cache : caches;
  s_own : gmap gvk nat;               (* view_cache.go:36: the informers of the storage *)
  s_del : gmap gvk (list nat);        (* view_cache.go:40 delegatingInformers *)
  s_ops : gmap (nat * gvk) nat;       (* delegating_view_cache.go:34: the informers of each operator *)
  s_on : gmap nat nat;                (* view_cache_informer.go:26: the informer of each registered handler *)
  s_infs : nat; s_handlers : nat;     (* how many informers and handlers were made *)
  s_log : nat -> list wevent }.       (* what each handler has got *)
Definition shared0 : shared := Shared ∅ ∅ ∅ ∅ ∅ 0 0 (fun _ => []).

Section shared.
Variable hash : string -> string.
Variable lister : store -> list jobj.

(** view_cache.go:190-219 GetInformerForKind with 116-140 RegisterInformerForKind *)
Definition own_informer (s : shared) (x : gvk) : shared * nat :=
  match s_own s !! x with
  | Some j => (s, j)
  | None =>
      let j := s_infs s in
      (Shared (s_cache s) (<[x := j]> (s_own s)) (s_del s) (s_ops s) (s_on s) (S j) (s_handlers s) (s_log s), j)
  end.
(** delegating_view_cache.go:69-92 GetInformerForKind, 96-127 registerInformerForKind,
    view_cache.go:144-157 RegisterDelegatingInformer *)
Definition op_informer (s : shared) (p : nat) (x : gvk) : shared * nat :=
  match s_ops s !! (p, x) with
  | Some j => (s, j)
  | None =>
      let j := s_infs s in
      (Shared (s_cache s) (s_own s) (<[x := default [] (s_del s !! x) ++ [j]]> (s_del s)) (<[(p, x) := j]> (s_ops s)) (s_on s) (S j) (s_handlers s) (s_log s), j)
  end.
(** view_cache_informer.go:61-105 AddEventHandler *)
Definition add_handler (s : shared) (j : nat) (x : gvk) : shared :=
  let i := s_handlers s in
  Shared (s_cache s) (s_own s) (s_del s) (s_ops s) (<[i := j]> (s_on s)) (s_infs s) (S i)
    (fun k => if decide (k = i) then map (fun m => WCreate (obj_copy m)) (lister (cache_of (s_cache s) x)) else s_log s k).
(** view_cache.go:160-182 UnregisterDelegatingInformer: the first occurrence is replaced by
    the last element. *)
Definition swap_remove (j : nat) (l : list nat) : list nat :=
  match list_find (fun k => k = j) l, last l with
  | Some (i, _), Some z => take (length l - 1) (<[i := z]> l)
  | _, _ => l
  end.
(** view_cache.go:260-277, 311-328, 373-390: an event goes to the informer of the storage and
    to the delegating ones, and from each of them to its handlers
    (view_cache_informer.go:139-190 TriggerEvent). *)
Definition fire (s : shared) (e : gvk * wevent) : shared :=
  let '(s, j) := own_informer s e.1 in
  let js := j :: default [] (s_del s !! e.1) in
  Shared (s_cache s) (s_own s) (s_del s) (s_ops s) (s_on s) (s_infs s) (s_handlers s)
    (fun i => s_log s i ++ concat (map (fun k => if decide (s_on s !! i = Some k) then [copied e.2] else []) js)).

(** What operators and the API server do. *)
Inductive sact :=
  | SDo (o : vop)                (* a write through the client of any operator or the API server *)
  | SListen (p : nat) (x : gvk)  (* operator [p] subscribes: GetInformer and AddEventHandler *)
  | SWatch (x : gvk)             (* a subscription at the storage, as made by watches *)
  | SLeave (i : nat)             (* RemoveEventHandler *)
  | SRemove (p : nat) (x : gvk)  (* delegating_view_cache.go:130-149 RemoveInformer *)
  | SRemoveOwn (x : gvk)         (* view_cache.go:222-234 RemoveInformer *)
  | SStop (p : nat).             (* delegating_view_cache.go:203-221: the context of the operator ends *)

Definition sstep (s : shared) (a : sact) : shared :=
  match a with
  | SDo o =>
      (** delegating_view_cache.go:236-239: the client of an operator is that of the storage *)
      let '(c, es, _) := vstep hash lister (s_cache s) o in
      foldl fire (Shared c (s_own s) (s_del s) (s_ops s) (s_on s) (s_infs s) (s_handlers s) (s_log s)) es
  | SListen p x => if is_view_kind x then let '(s, j) := op_informer s p x in add_handler s j x else s
  | SWatch x => if is_view_kind x then let '(s, j) := own_informer s x in add_handler s j x else s
  | SLeave i => Shared (s_cache s) (s_own s) (s_del s) (s_ops s) (delete i (s_on s)) (s_infs s) (s_handlers s) (s_log s)
  | SRemove p x =>
      match s_ops s !! (p, x) with
      | None => s
      | Some j => Shared (s_cache s) (s_own s) (alter (swap_remove j) x (s_del s)) (delete (p, x) (s_ops s)) (s_on s) (s_infs s) (s_handlers s) (s_log s)
      end
  | SRemoveOwn x => Shared (s_cache s) (delete x (s_own s)) (s_del s) (s_ops s) (s_on s) (s_infs s) (s_handlers s) (s_log s)
  | SStop p =>
      (** The loop over the informers of the operator has one of each kind, so its order does
          not matter; the informers stay in the map of the operator. *)
      Shared (s_cache s) (s_own s)
        (map_imap (fun x l => Some (match s_ops s !! (p, x) with Some j => swap_remove j l | None => l end)) (s_del s))
        (s_ops s) (s_on s) (s_infs s) (s_handlers s) (s_log s)
  end.
Definition srun (s : shared) (l : list sact) : shared := foldl sstep s l.

(** delegating_view_cache.go:159-176 Get and 179-191 List of operator [p]: nothing of its own
    is consulted. *)
Definition op_get (s : shared) (p : nat) (x : gvk) (ns name : string) : option jobj :=
  if is_view_kind x then vc_get (s_cache s) x ns name else None.
Definition op_list (s : shared) (p : nat) (x : gvk) (sel : selection) : option (list jobj) :=
  if is_view_kind (object_gvk x) then Some (vc_list lister (s_cache s) x sel) else None.
End shared.

(** *** Events and the list of informers

    view_cache.go:268-277: an event takes the list of delegating informers of its kind under
    the lock and walks through it without the lock.  The list is a Go slice: [h_arrays] are
    the arrays, [h_now] the current slice (which array, how long), [h_walk] the walk (which
    array, how long, the next index) and [h_got] the informers that got the event.
    [WUnregister] is swap_remove in place (view_cache.go:172-179); [WRegister] is append
    (156), which writes behind the end if the array has room and otherwise moves to a new
    array; unused places hold 0. *)
Record walk := Walk { h_arrays : list (list nat); h_now : nat * nat; h_walk : option (nat * nat * nat); h_got : list nat }.
Inductive walk_act := WStart | WNext | WUnregister (j : nat) | WRegister (j : nat).
Definition arr (w : walk) (a : nat) : list nat := default [] (h_arrays w !! a).
Definition walk_step (w : walk) (a : walk_act) : walk :=
  let '(n, len) := h_now w in
  match a with
  | WStart => Walk (h_arrays w) (h_now w) (Some (n, len, 0%nat)) (h_got w)
  | WNext =>
      match h_walk w with
      | Some (b, l, k) => if (k <? l)%nat then Walk (h_arrays w) (h_now w) (Some (b, l, S k)) (h_got w ++ match arr w b !! k with Some j => [j] | None => [] end) else w
      | None => w
      end
  | WUnregister j =>
      match list_find (fun k => k = j) (take len (arr w n)), arr w n !! (len - 1)%nat with
      | Some (i, _), Some z => Walk (<[n := <[i := z]> (arr w n)]> (h_arrays w)) (n, (len - 1)%nat) (h_walk w) (h_got w)
      | _, _ => w
      end
  | WRegister j =>
      if (len <? length (arr w n))%nat then Walk (<[n := <[len := j]> (arr w n)]> (h_arrays w)) (n, S len) (h_walk w) (h_got w)
      else Walk (h_arrays w ++ [take len (arr w n) ++ j :: replicate len 0%nat]) (length (h_arrays w), S len) (h_walk w) (h_got w)
  end.
Definition walk_run (w : walk) (l : list walk_act) : walk := foldl walk_step w l.
(** A list of informers, before any event. *)
Definition walk0 (l : list nat) : walk := Walk [l] (0%nat, length l) None [].
