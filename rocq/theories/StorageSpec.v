(** Specification vocabulary for the requests to the API server: what they do to a
    map from kind, namespace and name to objects. *)
From Verif Require Import ViewModel ZSetSpec PipelineSpec GroupSpec ValueSpec JsonSpec ViewSpec StorageModel.

(** The object, with the kind and the namespace of the request. *)
Definition placed (x : gvk) (ns : string) (m : jobj) : jobj := set_namespace (set_gvk m x) ns.

(** What a request should return: this, or these objects in some order. *)
Inductive expected := Exactly (r : sreply) | Listing (p : jobj -> Prop).
Definition as_expected (r : sreply) (e : expected) : Prop :=
  match e with
  | Exactly r' => r = r'
  | Listing p => exists l, r = SItems l /\ NoDup (map obj_id l) /\ forall m, In m l <-> p m
  end.

Section spec.
Variable hash : string -> string.
Definition ideal_create (w : world) (x : gvk) (ns : option string) (m : jobj) (valid : jobj -> bool) : world * expected :=
  if valid m then
    match ns with
    | None => (w, Exactly SBadRequest)
    | Some ns => (<[(x, (ns, get_name m)) := stamp hash (placed x ns m)]> w, Exactly (SObject (placed x ns m)))
    end
  else (w, Exactly SRefused).
(** The objects after one request for a kind, and what the request returns. *)
Definition ideal_serve (w : world) (x : gvk) (r : sreq) : world * expected :=
  match r with
  | SGet None _ | SUpdate None _ _ _ _ _ _ | SDelete None _ _ _ => (w, Exactly SBadRequest)
  | SGet (Some ns) name => (w, Exactly (match w !! (x, (ns, name)) with Some m => SObject m | None => SNotFound end))
  | SList ns labels fields =>
      (w, Listing (fun m => get_gvk m = x /\ w !! source_id m = Some m /\ selects (Selection (default EmptyString ns) labels fields) m = true))
  | SCreate ns m valid _ => ideal_create w x ns m valid
  | SUpdate (Some ns) name upd valid_new valid force _ =>
      match w !! (x, (ns, name)) with
      | Some cur =>
          match upd (Some cur) with
          | Some m => if valid m cur then (<[(x, (ns, name)) := stamp hash (set_gvk m x)]> w, Exactly (SObject (set_gvk m x))) else (w, Exactly SRefused)
          | None => (w, Exactly SRefused)
          end
      | None =>
          if force then match upd None with Some m => ideal_create w x (Some ns) m valid_new | None => (w, Exactly SRefused) end
          else (w, Exactly SNotFound)
      end
  | SDelete (Some ns) name valid _ =>
      match w !! (x, (ns, name)) with
      | Some m => if valid m then (delete (x, (ns, name)) w, Exactly (SGone m)) else (w, Exactly SRefused)
      | None => (w, Exactly SNotFound)
      end
  | SDeleteAll ns valid labels fields _ =>
      let s := Selection (default EmptyString ns) labels fields in
      (filter (fun e => ~ (e.1.1 = x /\ selects s e.2 = true /\ valid e.2 = true)) w,
       Listing (fun m => get_gvk m = x /\ w !! source_id m = Some m /\ selects s m = true))
  end.
Inductive sexpected := ReplyAs (e : expected) | WroteAs (r : vresult).
Definition result_as (r : sresult) (e : sexpected) : Prop :=
  match r, e with Reply r, ReplyAs e => as_expected r e | Wrote r, WroteAs r' => r = r' | _, _ => False end.
Definition ideal_act (w : world) (a : sact) : world * sexpected :=
  match a with
  | Api x r => let '(w', e) := ideal_serve w x r in (w', ReplyAs e)
  | Write o => let '(w', r) := ideal_step hash w o in (w', WroteAs r)
  end.
Fixpoint ideal_acts (w : world) (l : list sact) : world * list sexpected :=
  match l with
  | [] => (w, [])
  | a :: l => let '(w1, e) := ideal_act w a in let '(w2, es) := ideal_acts w1 l in (w2, e :: es)
  end.
End spec.

(** An object fit to be sent. *)
Definition sendable (m : jobj) : Prop := owf m /\ nonegzero (JMap m) /\ match mget m "metadata" with Some (JMap _) | None => True | Some _ => False end.
(** A stored object of this namespace and name, or none. *)
Definition stored_as (i : string * string) (cur : option jobj) : Prop :=
  match cur with Some o => owf o /\ nonegzero (JMap o) /\ obj_id o = i | None => True end.
(** A request that the handlers of the API server pass on. *)
Definition request_ok (r : sreq) : Prop :=
  match r with
  | SGet ns name | SDelete ns name _ _ => plain (default EmptyString ns, name)
  | SCreate ns m _ _ => sendable m /\ plain (default EmptyString ns, get_name m)
  | SUpdate ns name upd _ _ _ _ =>
      plain (default EmptyString ns, name) /\ forall cur m, stored_as (default EmptyString ns, name) cur -> upd cur = Some m -> sendable m /\ obj_id m = (default EmptyString ns, name)
  | SList _ _ _ | SDeleteAll _ _ _ _ _ => True
  end.
Definition sact_ok (a : sact) : Prop := match a with Api x r => own_kind x /\ gvk_ok x /\ request_ok r | Write o => op_ok o end.

(** The namespace of a request; "" stands for all. *)
Definition req_ns (r : sreq) : string :=
  match r with
  | SGet ns _ | SList ns _ _ | SCreate ns _ _ _ | SUpdate ns _ _ _ _ _ _ | SDelete ns _ _ _ | SDeleteAll ns _ _ _ _ => default EmptyString ns
  end.
(** Requests that name one object. *)
Definition by_name (r : sreq) : bool := match r with SList _ _ _ | SDeleteAll _ _ _ _ _ => false | _ => true end.
(** The request is about the objects of this kind and namespace. *)
Definition about (x : gvk) (r : sreq) (y : gvk) (ns : string) : Prop := y = x /\ (ns = req_ns r \/ (by_name r = false /\ req_ns r = EmptyString)).
Definition failure (r : sreply) : Prop := r = SBadRequest \/ r = SNotFound \/ r = SRefused \/ r = SInternal.
(** The objects that an answer shows. *)
Definition shown (r : sreply) : list jobj := match r with SObject m | SGone m => [m] | SItems l => l | _ => [] end.

(** *** Tables *)
(** The condition is complete: it has a type and a status, which are strings. *)
Definition condition (t s : string) (c : json) : Prop := exists m, c = JMap m /\ mget m "type" = Some (JStr t) /\ mget m "status" = Some (JStr s).
Definition pair_of (ts : string * string) : string := (ts.1 +:+ ":" +:+ ts.2)%string.
(** The complete conditions of a list, in order. *)
Inductive conditions_are : list json -> list (string * string) -> Prop :=
  | ca_nil : conditions_are [] []
  | ca_take c t s l ts : condition t s c -> conditions_are l ts -> conditions_are (c :: l) ((t, s) :: ts)
  | ca_skip c l ts : (forall t s, ~ condition t s c) -> conditions_are l ts -> conditions_are (c :: l) ts.
(** Ready before Available before Progressing before Degraded before all others. *)
Definition importance (t : string) : nat :=
  if decide (t = "Ready"%string) then 0%nat else if decide (t = "Available"%string) then 1%nat
  else if decide (t = "Progressing"%string) then 2%nat else if decide (t = "Degraded"%string) then 3%nat else 4%nat.

(** *** Isolation *)
(** The same answer, but for the order of lists. *)
Definition alike (r1 r2 : sreply) : Prop := r1 = r2 \/ exists l1 l2, r1 = SItems l1 /\ r2 = SItems l2 /\ Permutation l1 l2.
(** Two caches hold the same objects as far as [P] goes. *)
Definition same_on (P : gvk -> string -> Prop) (c1 c2 : caches) : Prop :=
  forall y ns name, is_view_kind y = true -> plain (ns, name) -> P y ns -> vc_get c1 y ns name = vc_get c2 y ns name.

(** *** Cells *)
Definition by_importance (a b : string * string) : Prop := (importance a.1 <= importance b.1)%nat.
(** [l'] is [l] in the order of importance; those of the same importance stay in
    order. *)
Definition sorted_as (l l' : list (string * string)) : Prop :=
  StronglySorted by_importance l' /\ forall n, List.filter (fun a => Nat.eqb (importance a.1) n) l' = List.filter (fun a => Nat.eqb (importance a.1) n) l.
(** At most three of the texts, and how many more there are. *)
Definition summary (l : list string) : string :=
  match l with
  | [] => "<none>"%string
  | a :: b :: c :: d :: l' => (a +:+ "," +:+ b +:+ "," +:+ c +:+ " +" +:+ pretty (Z.of_nat (S (length l'))) +:+ " more")%string
  | _ => String.concat "," l
  end.
Definition label_text (kv : string * string) : string := (kv.1 +:+ "=" +:+ kv.2)%string.
