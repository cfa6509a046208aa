(** Model of controllers that work together: the objects that one of them writes to a
    view are the source objects of another (pkg/controller/declarative.go,
    pkg/controller/reconcilers.go, pkg/reconciler/target.go, pkg/cache).

    A controller has one queue for each source (declarative.go:85-134) and, here, one
    worker for all of them; C48 is about several.  Sources are watches without predicates
    and selectors (those are C46), targets are of type Updater.  The steps of the model
    happen one after the other; between any two of them others may come.  Only runs in
    which no evaluation fails are modelled; for failures see C14, C22 and C47. *)
From Verif Require Export ReconcilerModel WriterModel.

Section net.
Context {FF : FloatFmt}.
Variable P : jobj -> bool.
Variable sortv : list json -> list json.
Variable hash : string -> string.
Variable lister : store -> list jobj.

(** target.go:90-177, with ctrlutils.go:38-82, for a view: [target_write] for a target of
    type Updater, with the events that the view cache sends (NetProofs.view_write_is). *)
Definition view_write (x : gvk) (c : caches) (d : delta) : outcome :=
  let new := set_gvk (obj_copy (d_obj d)) x in
  match d_type d with
  | Deleted => let '(c, es, r) := vc_delete c new in (c, es, if decide (r = VNotFound) then VOk else r)
  | Sync => (c, [], VOk)
  | _ =>
      match vc_get c x (get_namespace new) (get_name new) with
      | None => vc_add hash c (updated x new (shell x new))
      | Some m => let '(c, es, r) := cl_update hash c (updated x new m) in (c, es, if decide (r = VNotFound) then VOk else r)
      end
  end.

(** A controller: its pipeline; whether it runs; the requests that wait, for each source;
    the requests that were processed; the operations that the worker still has to write;
    the operations that were written. *)
Record node := Node {
  n_pipe : pipe P; n_on : bool; n_queue : gvk -> list delta; n_done : list delta; n_pending : list delta; n_written : list delta }.
Definition node0 (p : pipe P) : node := Node p false (fun _ => []) [] [] [].
(** The objects of the kinds that no controller makes, those of the views that controllers
    make, and the controllers. *)
Record net := Net { t_outer : caches; t_views : caches; t_nodes : list node }.
Definition net0 (ps : list (pipe P)) : net := Net ∅ ∅ (map node0 ps).
(** A controller makes the objects of kind [x]. *)
Definition made (s : net) (x : gvk) : bool :=
  is_view_kind x && existsb (fun n => bool_decide (p_target P (n_pipe n) = x)) (t_nodes s).
Definition objects_of (s : net) (x : gvk) : store := cache_of (if made s x then t_views s else t_outer s) x.

(** reconciler.go:90-135 for a watch on the kinds of a controller (source.go:92-127): the
    handlers get a copy of the event (view_cache_informer.go:139-190). *)
Definition tell (es : list (gvk * wevent)) (n : node) : node :=
  if n_on n then
    Node (n_pipe n) true
      (fun y => n_queue n y ++
         if decide (y ∈ p_sources P (n_pipe n))
         then omap request_of (map (fun e => copied e.2) (List.filter (fun e => bool_decide (e.1 = y)) es)) else [])
      (n_done n) (n_pending n) (n_written n)
  else n.

Inductive nact :=
  | NPut (m : jobj)              (* others create or change an object *)
  | NDrop (x : gvk) (ns name : string)   (* others delete an object *)
  | NStart (k : nat)             (* a controller starts to watch its sources *)
  | NWork (k : nat) (x : gvk)    (* its worker takes a request of source [x] and evaluates it *)
  | NWrite (k : nat).            (* it writes the next operation to the target *)

(** [None]: the step is not possible.  [o]: the iteration orders, for each controller.
    For [NPut] and [NDrop] the informers report each change as one event. *)
Definition net_step (o : nat -> order) (s : net) (a : nact) : option net :=
  let '(Net outer views nodes) := s in
  match a with
  | NPut m =>
      let x := get_gvk m in
      if made s x then None else
      let e := match cache_of outer x !! store_key m with None => WCreate m | Some old => WUpdate (Some old) (Some m) end in
      Some (Net (put outer x m) views (map (tell [(x, e)]) nodes))
  | NDrop x ns name =>
      if made s x then None else
      m ← cache_of outer x !! skey ns name;
      Some (Net (drop_key outer x (skey ns name)) views (map (tell [(x, WDelete m)]) nodes))
  | NStart k =>
      n ← nodes !! k;
      if n_on n then None else
      Some (Net outer views (<[k := Node (n_pipe n) true
        (fun y => if decide (y ∈ p_sources P (n_pipe n)) then map (fun m => Delta Added (obj_copy m)) (lister (objects_of s y)) else [])
        (n_done n) (n_pending n) (n_written n)]> nodes))
  | NWork k x =>
      n ← nodes !! k;
      match n_pending n, n_queue n x with
      | [], d :: q =>
          match evaluate P sortv (osub (o k) (length (n_done n))) (n_pipe n) d with
          | (p, Some ops) =>
              Some (Net outer views (<[k := Node p (n_on n) (fun y => if decide (y = x) then q else n_queue n y) (n_done n ++ [d]) ops (n_written n)]> nodes))
          | _ => None
          end
      | _, _ => None
      end
  | NWrite k =>
      n ← nodes !! k;
      match n_pending n with
      | [] => None
      | d :: ds =>
          let n1 := Node (n_pipe n) (n_on n) (n_queue n) (n_done n) ds (n_written n ++ [d]) in
          let x := p_target P (n_pipe n) in
          if is_view_kind x then
            match view_write x views d with
            | (c, es, VOk) => Some (Net outer c (map (tell es) (<[k := n1]> nodes)))
            | _ => None
            end
          else Some (Net outer views (<[k := n1]> nodes))
      end
  end.
Fixpoint net_run (o : nat -> order) (s : net) (l : list nact) : option net :=
  match l with [] => Some s | a :: l => s1 ← net_step o s a; net_run o s1 l end.
End net.
