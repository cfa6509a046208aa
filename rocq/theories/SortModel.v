(** Model of sortValues, pkg/dbsp/op_nonlinear.go:146-175. *)
From Verif Require Import JsonModel.

Section sort.
Context {FF : FloatFmt}.

(** cmp.Compare on float64: NaN is smaller than everything, and equal to
    itself (Go standard library). *)
Definition is_nan (f : spec_float) : bool := match f with S754_nan => true | _ => false end.
Definition fcompare (a b : spec_float) : comparison :=
  match is_nan a, is_nan b with
  | true, true => Eq
  | true, false => Lt
  | false, true => Gt
  | false, false => default Eq (SFcompare a b)
  end.

(** pkg/dbsp/op_nonlinear.go:149-173, the comparison function.  The error of
    computeJSONAny is ignored and leaves the empty string. *)
Definition sort_cmp (a b : json) : comparison :=
  match a, b with
  | JInt x, JInt y => Z.compare x y
  | JFloat x, JFloat y => fcompare x y
  | JStr x, JStr y => scmp x y
  | _, _ => scmp (default EmptyString (enc a)) (default EmptyString (enc b))
  end.

(** slices.SortFunc on at most 12 elements is an insertion sort
    (insertionSortCmpFunc, Go standard library): element [i] is swapped to the
    left while it compares less than its left neighbour.  Longer lists are
    sorted by pdqsort, which is not modelled; see [is_sort] in SortSpec.v. *)
Fixpoint insert_left (x : json) (rev_prefix : list json) : list json :=
  match rev_prefix with
  | [] => [x]
  | y :: ys => match sort_cmp x y with Lt => y :: insert_left x ys | _ => x :: y :: ys end
  end.
Definition sort_small (l : list json) : list json :=
  rev (foldl (fun acc x => insert_left x acc) [] l).
End sort.
