(** Specification vocabulary for the view cache: the objects that a user expects
    after a history of writes, and what events say. *)
From Verif Require Import ViewModel ZSetSpec OpsSpec GatherSpec ExecSpec JsonSpec CleanSpec PipelineSpec GroupSpec ValueSpec.

(** No negative zero inside: Go's equality does not tell it from zero. *)
Inductive nonegzero : json -> Prop :=
  | nnz_null : nonegzero JNull
  | nnz_bool b : nonegzero (JBool b)
  | nnz_int n : nonegzero (JInt n)
  | nnz_float f : f <> S754_zero true -> nonegzero (JFloat f)
  | nnz_str s : nonegzero (JStr s)
  | nnz_list l : Forall nonegzero l -> nonegzero (JList l)
  | nnz_map m : Forall (fun kv => nonegzero kv.2) m -> nonegzero (JMap m).

(** The view kinds that an operator declares. *)
Definition own_kind (x : gvk) : Prop := exists operator kind, no_dot operator /\ x = view_gvk operator kind.
(** An object fit to be written. *)
Definition writable (m : jobj) : Prop := owf m /\ nonegzero (JMap m) /\ plain (obj_id m).
(** A patch that leaves kind and name alone. *)
Definition keeps_identity (p : jobj) : Prop :=
  mget p "apiVersion" = None /\ mget p "kind" = None
  /\ match mget p "metadata" with
     | None => True
     | Some (JMap x) => mget x "name" = None /\ mget x "namespace" = None
     | Some _ => False
     end.
Definition sub_name (sub : string) : Prop := sub <> "apiVersion"%string /\ sub <> "kind"%string /\ sub <> "metadata"%string.

Definition op_ok (o : vop) : Prop :=
  match o with
  | VCreate m => writable m
  | VUpdate m => writable m /\ own_kind (get_gvk m)
  | VPatch m p => plain (obj_id m) /\ own_kind (get_gvk m) /\ owf p /\ nonegzero (JMap p) /\ keeps_identity p
  | VDelete m => plain (obj_id m)
  | VDeleteAll m _ => own_kind (get_gvk m) /\ has_suffix "List" (get_kind m) = false
  | VSubUpdate sub m => writable m /\ own_kind (get_gvk m) /\ sub_name sub
  | VSubCreate sub m s => plain (obj_id m) /\ own_kind (get_gvk m) /\ owf s /\ nonegzero (JMap s) /\ sub_name sub
  end.

Section spec.
Variable hash : string -> string.
(** The object gets a UID if it has none, and its kind fields their usual form. *)
Notation stamp := (stamp hash).

(** The objects after one write, and what the write returns. *)
Definition ideal_step (w : world) (o : vop) : world * vresult :=
  match o with
  | VCreate m => if is_view_kind (get_gvk m) then (<[source_id m := stamp m]> w, VOk) else (w, VInvalid)
  | VUpdate m => match w !! source_id m with Some _ => (<[source_id m := stamp m]> w, VOk) | None => (w, VNotFound) end
  | VPatch m p =>
      match w !! source_id m with
      | Some old => match patch (JMap old) (JMap p) with JMap new => (<[source_id m := stamp new]> w, VOk) | _ => (w, VInvalid) end
      | None => (w, VNotFound)
      end
  | VDelete m =>
      if is_view_kind (get_gvk m) then
        match w !! source_id m with Some _ => (delete (source_id m) w, VOk) | None => (w, VNotFound) end
      else (w, VInvalid)
  | VDeleteAll m s => (filter (fun e => ~ (e.1.1 = get_gvk m /\ selects s e.2 = true)) w, VOk)
  | VSubUpdate sub m =>
      match w !! source_id m with
      | Some old => match mget m sub with Some (JMap v) => (<[source_id m := mset old sub (JMap v)]> w, VOk) | _ => (w, VInvalid) end
      | None => (w, VNotFound)
      end
  | VSubCreate sub m s =>
      match mget s sub with
      | Some (JMap v) => match w !! source_id m with Some old => (<[source_id m := mset old sub (JMap v)]> w, VOk) | None => (w, VNotFound) end
      | _ => (w, VInvalid)
      end
  end.
Fixpoint ideal_run (w : world) (os : list vop) : world * list vresult :=
  match os with
  | [] => (w, [])
  | o :: os => let '(w1, r) := ideal_step w o in let '(w2, rs) := ideal_run w1 os in (w2, r :: rs)
  end.

Variable lister : store -> list jobj.
(** The same with the cache; also the events. *)
Fixpoint cache_run (c : caches) (os : list vop) : caches * list (gvk * wevent) * list vresult :=
  match os with
  | [] => (c, [], [])
  | o :: os =>
      let '(c1, es, r) := vstep hash lister c o in
      let '(c2, es', rs) := cache_run c1 os in
      (c2, es ++ es', r :: rs)
  end.
End spec.

(** A store lists each of its objects once, in any order. *)
Definition lists_all (lister : store -> list jobj) : Prop := forall s, Permutation (lister s) (map snd (map_to_list s)).

(** *** Events *)

(** The events of one kind. *)
Definition events_on (x : gvk) (es : list (gvk * wevent)) : list wevent := map snd (List.filter (fun e => bool_decide (e.1 = x)) es).
(** The writes in a sequence of actions. *)
Definition act_ok (a : vact) : Prop := match a with Do o => op_ok o | _ => True end.
Definition writes (l : list vact) : list vop := omap (fun a => match a with Do o => Some o | _ => None end) l.
(** The objects that a sequence of events amounts to. *)
Definition replayed (es : list wevent) : contents := apply_ops no_objects (omap request_of es).
(** The objects of one kind. *)
Definition kind_of (w : world) (x : gvk) : contents := fun i => w !! (x, i).
(** The selected ones. *)
Definition only (sel : jobj -> bool) (T : contents) : contents := fun i =>
  match T i with Some m => if sel m then Some m else None | None => None end.
(** No event changes whether the object is selected. *)
Fixpoint steady (sel : jobj -> bool) (T : contents) (es : list wevent) : Prop :=
  match es with
  | [] => True
  | e :: es =>
      match request_of e with
      | Some d => match T (obj_id (d_obj d)) with Some old => sel old = sel (d_obj d) | None => True end /\ steady sel (apply_op T d) es
      | None => steady sel T es
      end
  end.

(** The reader of the channel keeps up: there is room whenever an event is sent. *)
Fixpoint keeps_up (cap waiting : nat) (l : list wact) : Prop :=
  match l with
  | [] => True
  | Send _ :: l => (waiting < cap)%nat /\ keeps_up cap (S waiting) l
  | Recv :: l => keeps_up cap (waiting - 1) l
  end.
Definition sent (l : list wact) : list wevent := omap (fun a => match a with Send e => Some e | Recv => None end) l.

(** *** Overlapping calls *)

Definition choice_ok (a : choice) : Prop :=
  match a with RAdd m | RUpdate _ m => owf m /\ plain (obj_id m) | _ => True end.
(** The objects of a store are as the cache leaves them. *)
Definition store_ok (s : store) : Prop := forall k m, s !! k = Some m -> store_key m = k /\ plain (obj_id m) /\ obj_copy m = m.

(** The event brings the object. *)
Definition brings (e : wevent) (m : jobj) : Prop := e = WCreate m \/ exists old, e = WUpdate old (Some m).
(** All calls have returned. *)
Definition finished (r : race) : Prop := r_open r = [] /\ r_replay r = Some [].
(** The name that an open call is about. *)
Definition pend_key (p : pend) : string :=
  match p with
  | PRemove m | PTrigger (WCreate m) | PTrigger (WDelete m) | PTrigger (WGeneric m) | PTrigger (WUpdate _ (Some m)) => store_key m
  | PTrigger (WUpdate _ None) => EmptyString
  end.
Definition choice_key (a : choice) : option string :=
  match a with RAdd m | RUpdate _ m | RFind m => Some (store_key m) | _ => None end.
(** Calls begin after the registration has ended, and no call on an object
    begins while another one on the same object is open. *)
Definition orderly (r : race) (a : choice) : Prop :=
  match choice_key a with
  | Some k => r_reg r = true /\ r_replay r = Some [] /\ k ∉ map pend_key (r_open r)
  | None => True
  end.
Fixpoint orderly_run (hash : string -> string) (lister : store -> list jobj) (r : race) (l : list choice) : Prop :=
  match l with
  | [] => True
  | a :: l => orderly r a /\ match rstep hash lister r a with Some r' => orderly_run hash lister r' l | None => True end
  end.
