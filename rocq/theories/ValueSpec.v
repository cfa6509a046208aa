(** Specification vocabulary for patches and merges. *)
From Verif Require Import JsonModel.

(** Positions inside a value. *)
Inductive pos := Key (k : string) | Idx (i : nat).
Definition child (v : json) (p : pos) : option json :=
  match v, p with
  | JMap m, Key k => mget m k
  | JList l, Idx i => l !! i
  | _, _ => None
  end.
Fixpoint at_path (v : json) (ps : list pos) : option json :=
  match ps with
  | [] => Some v
  | p :: ps => match child v p with Some w => at_path w ps | None => None end
  end.

(** Strings, numbers and booleans. *)
Definition leaf (v : json) : Prop :=
  match v with JNull | JList _ | JMap _ => False | _ => True end.

(** The patch says nothing about this position: on the way there it has a map
    without the key or a list without the index. *)
Fixpoint untouched (m : json) (ps : list pos) : Prop :=
  match ps with
  | [] => False
  | p :: ps =>
      match m, p with
      | JMap mm, Key k => match mget mm k with None => True | Some v => untouched v ps end
      | JList lm, Idx i => match lm !! i with None => True | Some v => untouched v ps end
      | _, _ => False
      end
  end.

(** No null inside; no NaN inside. *)
Inductive nonull : json -> Prop :=
  | nonull_bool b : nonull (JBool b)
  | nonull_int n : nonull (JInt n)
  | nonull_float f : nonull (JFloat f)
  | nonull_str s : nonull (JStr s)
  | nonull_list l : Forall nonull l -> nonull (JList l)
  | nonull_map m : Forall (fun kv => nonull kv.2) m -> nonull (JMap m).
Inductive nonan : json -> Prop :=
  | nonan_null : nonan JNull
  | nonan_bool b : nonan (JBool b)
  | nonan_int n : nonan (JInt n)
  | nonan_float f : f <> S754_nan -> nonan (JFloat f)
  | nonan_str s : nonan (JStr s)
  | nonan_list l : Forall nonan l -> nonan (JList l)
  | nonan_map m : Forall (fun kv => nonan kv.2) m -> nonan (JMap m).

(** Values that have the same kind wherever both have something. *)
Inductive compatible : json -> json -> Prop :=
  | compatible_null v : compatible JNull v
  | compatible_leaf v w : leaf v -> leaf w -> compatible v w
  | compatible_list l l' : compatible (JList l) (JList l')
  | compatible_map m m' : (forall k v w, mget m k = Some v -> mget m' k = Some w -> compatible v w) -> compatible (JMap m) (JMap m').
