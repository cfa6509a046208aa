(** Patching and merging JSON values (pkg/object/patch.go, utils.go).
    Values are immutable here: DeepCopyAny (utils.go:88-107) is the identity, and
    the sharing of backing arrays by append (utils.go:119) is not modelled. *)
From Verif Require Export ObjModel.

(** patch.go:45-57: the list case. *)
Definition patch_items (f : json -> json -> json) : list json -> list json -> list json :=
  fix go (lo lm : list json) {struct lm} : list json :=
    match lm, lo with
    | [], _ => lo
    | _, [] => lm
    | x :: lm, y :: lo => f y x :: go lo lm
    end.
(** patch.go:67-87: the map case. Keys of a map are distinct, so the iteration
    order does not matter. *)
Definition patch_entries (f : json -> json -> json) (mo : jobj) : jobj -> jobj -> jobj :=
  fix go (mm acc : jobj) {struct mm} : jobj :=
    match mm with
    | [] => acc
    | (k, v) :: mm =>
        go mm match v with
              | JNull => mdel acc k
              | _ => match mget mo k with
                     | None => mset acc k v
                     | Some vo => mset acc k (f vo v)
                     end
              end
    end.
(** patch.go:25-92 patch.  reflect.DeepEqual is [go_equal]: nil slices and maps do
    not occur in decoded values. *)
Fixpoint patch (o m : json) {struct m} : json :=
  if go_equal o m then m
  else match o with
  | JNull => m
  | _ =>
      match m with
      | JNull => JNull
      | JBool _ | JInt _ | JFloat _ | JStr _ => m
      | JList lm => match o with JList lo => JList (patch_items patch lo lm) | _ => m end
      | JMap mm => match o with JMap mo => JMap (patch_entries patch mo mm mo) | _ => m end
      end
  end.
(** patch.go:12-23 Patch; [None] is an error. *)
Definition patch_object (obj m : jobj) : option jobj :=
  match patch (JMap obj) (JMap m) with JMap r => Some r | _ => None end.

(** utils.go:125-135: the keys of the left map. *)
Definition merge_left (f : json -> json -> option json) (mb : jobj) : jobj -> jobj -> option jobj :=
  fix go (ma acc : jobj) {struct ma} : option jobj :=
    match ma with
    | [] => Some acc
    | (k, x) :: ma =>
        match mget mb k with
        | Some y => z ← f x y; go ma (mset acc k z)
        | None => go ma (mset acc k x)
        end
    end.
(** utils.go:137-141: the keys that are only in the right map. *)
Fixpoint merge_right (ma mb acc : jobj) : jobj :=
  match mb with
  | [] => acc
  | (k, y) :: mb => merge_right ma mb (match mget ma k with Some _ => acc | None => mset acc k y end)
  end.
(** utils.go:110-147 MergeAny; [None] is an error. *)
Fixpoint merge (a b : json) {struct a} : option json :=
  match a with
  | JNull => Some b
  | _ =>
      match b with
      | JNull => None
      | JBool _ | JInt _ | JFloat _ | JStr _ => Some b
      | JList lb => match a with JList la => Some (JList (la ++ lb)) | _ => Some b end
      | JMap mb => match a with JMap ma => r ← merge_left merge mb ma ma; Some (JMap (merge_right ma mb r)) | _ => Some b end
      end
  end.
