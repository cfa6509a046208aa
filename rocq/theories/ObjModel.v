(** Objects: view groups (pkg/api/view/v1alpha1/group_version.go), copying and
    UIDs (pkg/object), deltas (pkg/object/delta.go) and the object store
    (pkg/cache/store.go).  An object is the content of an
    unstructured.Unstructured; a nil object is not modelled. *)
From Verif Require Export JsonModel.

(** *** Strings *)

(** strings.HasSuffix. *)
Definition has_suffix (suf s : string) : bool :=
  (String.length suf <=? String.length s)%nat
  && String.eqb (String.substring (String.length s - String.length suf) (String.length suf) s) suf.

(** *** View groups *)

(** group_version.go:11-15 *)
Definition group_suffix : string := "view.dcontroller.io".
Definition full_group_suffix : string := "." +:+ group_suffix.
Definition view_version : string := "v1alpha1".
(** group_version.go:18-20 Group, 28-30 GroupVersionKind. *)
Definition view_group (operator : string) : string := operator +:+ "." +:+ group_suffix.
Definition view_gvk (operator view : string) : gvk := GVK (view_group operator) view_version view.
(** group_version.go:83 IsViewGroup, 86-88 IsViewGroupVersion, 91-93 IsViewKind. *)
Definition is_view_group (g : string) : bool := has_suffix group_suffix g.
Definition is_view_gv (g v : string) : bool := is_view_group g && String.eqb v view_version.
Definition is_view_kind (x : gvk) : bool := is_view_gv (gvk_group x) (gvk_version x).

(** *** Objects *)

(** pkg/object/object.go:85-102 DeepCopy, DeepCopyInto.  Values are immutable
    here; what remains visible is that the apiVersion and kind fields are
    rewritten from the parsed GVK. *)
Definition obj_copy (m : jobj) : jobj := set_gvk m (get_gvk m).
(** pkg/object/object.go:70-76 SetContent on [old] with content [m]. *)
Definition set_content (old m : jobj) : jobj :=
  let m := set_gvk m (get_gvk old) in
  set_name (set_namespace m (get_namespace old)) (get_name old).
(** pkg/object/uid.go:36-42 RemoveUID. *)
Definition remove_uid (m : jobj) : jobj :=
  if negb (is_view_kind (get_gvk m)) || String.eqb (get_uid m) "" then m
  else nested_del m ["metadata"; "uid"].

(** equality.Semantic.DeepEqual on JSON values: Go equality on floats,
    structural otherwise. *)
Fixpoint go_equal (v w : json) : bool :=
  match v, w with
  | JNull, JNull => true
  | JBool a, JBool b => Bool.eqb a b
  | JInt a, JInt b => (a =? b)%Z
  | JFloat a, JFloat b => SFeqb a b
  | JStr a, JStr b => String.eqb a b
  | JList l1, JList l2 =>
      (fix go (l1 l2 : list json) : bool :=
         match l1, l2 with
         | [], [] => true
         | a :: l1, b :: l2 => go_equal a b && go l1 l2
         | _, _ => false
         end) l1 l2
  | JMap m1, JMap m2 =>
      (fix go (m1 m2 : jobj) : bool :=
         match m1, m2 with
         | [], [] => true
         | (j, a) :: m1, (k, b) :: m2 => String.eqb j k && go_equal a b && go m1 m2
         | _, _ => false
         end) m1 m2
  | _, _ => false
  end.
(** pkg/object/object.go:79-81 DeepEqual. *)
Definition obj_equal (a b : jobj) : bool := go_equal (JMap a) (JMap b).

(** *** Deltas: pkg/object/delta.go:11-33 *)
Inductive dtype := Added | Updated | Replaced | Upserted | Deleted | Sync.
#[global] Instance dtype_eq : EqDecision dtype.
Proof. solve_decision. Defined.
Record delta := Delta { d_type : dtype; d_obj : jobj }.

(** *** The object store *)

(** client-go MetaNamespaceKeyFunc. *)
Definition skey (ns name : string) : string := if decide (ns = EmptyString) then name else ns +:+ "/" +:+ name.
Definition store_key (m : jobj) : string := skey (get_namespace m) (get_name m).
(** types.NamespacedName.String. *)
Definition nsname (m : jobj) : string := get_namespace m +:+ "/" +:+ get_name m.

Notation store := (gmap string jobj).
(** pkg/cache/store.go:20 Add, 23 Update (the same in client-go). *)
Definition store_add (s : store) (m : jobj) : store := <[store_key m := obj_copy m]> s.
(** pkg/cache/store.go:26 Delete. *)
Definition store_delete (s : store) (m : jobj) : store := delete (store_key m) s.
(** pkg/cache/store.go:42-48 Get. *)
Definition store_get (s : store) (m : jobj) : option jobj := obj_copy <$> s !! store_key m.
