(** Model of MergeAny (pkg/object/utils.go) on memory: lists are Go slices, which may share
    their array with others and may have room for more.

    Maps are values here: MergeAny writes only to maps that it has just made.  Slices start
    at the beginning of their array, since the project never cuts off the front of a list of
    a document. *)
From Verif Require Export ValueModel HeapModel.

(** [SList a n]: the first [n] elements of array [a]. *)
Inductive sval := SNull | SBool (b : bool) | SInt (n : Z) | SFloat (f : spec_float) | SStr (s : string) | SList (a n : nat) | SMap (m : list (string * sval)).
(** The arrays, with all their elements: the length of an array is its capacity. *)
Notation arrays := (list (list sval)).

Section slice.
(** The capacity of the array that append makes (Go runtime): for a given old capacity and
    the length that is needed. *)
Variable grow : nat -> nat -> nat.
Definition array (h : arrays) (a : nat) : list sval := default [] (h !! a).
(** Go's append: within the array if there is room, else in a new one. *)
Definition append_to (h : arrays) (a n : nat) (vs : list sval) : arrays * sval :=
  let l := array h a in
  let n' := (n + length vs)%nat in
  if (n' <=? length l)%nat then (<[a := take n l ++ vs ++ drop n' l]> h, SList a n')
  else (h ++ [take n l ++ vs ++ replicate (grow (length l) n' - n') SNull], SList (length h) n').

(** utils.go:125-135, in the order of the keys (Go: in some order): the entries of the copy
    of the left map. *)
Definition s_left (f : sval -> sval -> arrays -> arrays * option sval) (mb : list (string * sval)) :
    list (string * sval) -> arrays -> arrays * option (list (string * sval)) :=
  fix go ma h :=
    match ma with
    | [] => (h, Some [])
    | (k, x) :: ma =>
        let '(h, z) := match kget mb k with Some y => f x y h | None => (h, Some x) end in
        match z with
        | Some z => match go ma h with (h, Some r) => (h, Some ((k, z) :: r)) | (h, None) => (h, None) end
        | None => (h, None)
        end
    end.
(** utils.go:137-141 *)
Fixpoint s_right (ma mb acc : list (string * sval)) : list (string * sval) :=
  match mb with
  | [] => acc
  | (k, y) :: mb => s_right ma mb (match kget ma k with Some _ => acc | None => kset acc k y end)
  end.
(** utils.go:110-147 MergeAny; [None] is an error.  The copy that it makes of the left map is
    overwritten entry by entry. *)
Fixpoint s_merge (a b : sval) (h : arrays) {struct a} : arrays * option sval :=
  match a with
  | SNull => (h, Some b)
  | _ =>
      match b with
      | SNull => (h, None)
      | SBool _ | SInt _ | SFloat _ | SStr _ => (h, Some b)
      | SList bb bn => match a with SList aa an => let '(h, r) := append_to h aa an (take bn (array h bb)) in (h, Some r) | _ => (h, Some b) end
      | SMap mb => match a with SMap ma => match s_left s_merge mb ma h with (h, Some r) => (h, Some (SMap (s_right ma mb r))) | (h, None) => (h, None) end | _ => (h, Some b) end
      end
  end.
(** pkg/pipeline/op.go:78-84: the objects of a list are merged, starting with nil *)
Fixpoint s_merge_all (v : sval) (us : list sval) (h : arrays) : arrays * option sval :=
  match us with
  | [] => (h, Some v)
  | u :: us => match s_merge v u h with (h, Some v) => s_merge_all v us h | (h, None) => (h, None) end
  end.
End slice.
(** utils.go:92-97 *)
Definition s_each (f : json -> arrays -> arrays * sval) : list json -> arrays -> arrays * list sval :=
  fix go l h := match l with [] => (h, []) | j :: l => let '(h, v) := f j h in let '(h, vs) := go l h in (h, v :: vs) end.
(** utils.go:98-103 *)
Definition s_fields (f : json -> arrays -> arrays * sval) : jobj -> arrays -> arrays * list (string * sval) :=
  fix go m h := match m with [] => (h, []) | (k, j) :: m => let '(h, v) := f j h in let '(h, vs) := go m h in (h, (k, v) :: vs) end.
(** utils.go:87-107 DeepCopyAny, dbsp/document.go:82-119: arrays of the right size. *)
Fixpoint s_alloc (j : json) (h : arrays) : arrays * sval :=
  match j with
  | JNull => (h, SNull)
  | JBool b => (h, SBool b)
  | JInt n => (h, SInt n)
  | JFloat f => (h, SFloat f)
  | JStr s => (h, SStr s)
  | JList l => let '(h, vs) := s_each s_alloc l h in (h ++ [vs], SList (length h) (length vs))
  | JMap m => let '(h, vs) := s_fields s_alloc m h in (h, SMap vs)
  end.
