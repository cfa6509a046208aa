(** Specification vocabulary for values whose lists are slices. *)
From Verif Require Import SliceModel.

(** The value [v], read in memory, is [j]; [v] uses no more than the first [n] elements of an
    array with [lim a = Some n]. *)
Inductive within (lim : nat -> option nat) (h : arrays) : sval -> json -> Prop :=
  | within_null : within lim h SNull JNull
  | within_bool b : within lim h (SBool b) (JBool b)
  | within_int n : within lim h (SInt n) (JInt n)
  | within_float f : within lim h (SFloat f) (JFloat f)
  | within_str s : within lim h (SStr s) (JStr s)
  | within_list a n l js :
      h !! a = Some l -> (n <= length l)%nat -> (forall n', lim a = Some n' -> (n <= n')%nat) ->
      Forall2 (within lim h) (take n l) js -> within lim h (SList a n) (JList js)
  | within_map m jm : Forall2 (fun x y => x.1 = y.1 /\ within lim h x.2 y.2) m jm -> within lim h (SMap m) (JMap jm).
Definition no_limit (_ : nat) : option nat := None.
(** The value [v], read in memory, is [j]. *)
Notation reads := (within no_limit).
(** The value [w] is [v] or below fields of [v]. *)
Inductive field_of : sval -> sval -> Prop :=
  | field_self v : field_of v v
  | field_in m k x w : (k, x) ∈ m -> field_of x w -> field_of (SMap m) w.
(** The lists in the fields have no room for more. *)
Definition full (h : arrays) (v : sval) : Prop := forall a n, field_of v (SList a n) -> length (array h a) = n.
(** They are not in arrays with a limit. *)
Definition apart (lim : nat -> option nat) (v : sval) : Prop := forall a n, field_of v (SList a n) -> lim a = None.
(** The fields with lists in arrays with a limit: their arrays. *)
Fixpoint rooms (lim : nat -> option nat) (v : sval) : list nat :=
  match v with
  | SList a _ => match lim a with Some _ => [a] | None => [] end
  | SMap m => concat (map (fun '(_, x) => rooms lim x) m)
  | _ => []
  end.
(** The lists in the fields have no room for more or end where the limit of their array is,
    each in an array of its own. *)
Definition own_room (lim : nat -> option nat) (h : arrays) (v : sval) : Prop :=
  (forall a n, field_of v (SList a n) -> match lim a with Some n' => n = n' | None => length (array h a) = n end) /\ NoDup (rooms lim v).
(** The value below some fields. *)
Fixpoint at_fields (p : list string) (v : sval) : option sval :=
  match p with
  | [] => Some v
  | k :: p => match v with SMap m => x ← kget m k; at_fields p x | _ => None end
  end.
(** An object whose fields show parts of [v]. *)
Definition shows_parts (v u : sval) : Prop := exists m, u = SMap m /\ forall k x, (k, x) ∈ m -> exists p, at_fields p v = Some x.
(** The array that Go's append makes for a short list: twice as large. *)
Definition doubled (cap need : nat) : nat := if (2 * cap <? need)%nat then need else (2 * cap)%nat.
