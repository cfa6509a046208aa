(** Model of the target writer (pkg/reconciler/target.go, ctrlutils.go), of the
    composite client that it writes through (pkg/cache/client.go) and of the
    parts of a Kubernetes API server that it relies on (recalled).

    The server here assigns resource versions and UIDs, checks the former on
    updates, keeps the status out of Create and Update for kinds with a status
    sub-resource, and has no other defaulting, validation or finalizers. *)
From Verif Require Export ViewModel.

(** Equality of values can be decided. *)
#[global] Instance float_eq : EqDecision spec_float.
Proof. solve_decision. Defined.
#[global] Instance json_eq : EqDecision json.
Proof.
  refine (fix go (v w : json) : Decision (v = w) :=
    let _ : EqDecision json := @go in
    match v, w with
    | JNull, JNull => left _
    | JBool a, JBool b => cast_if (decide (a = b))
    | JInt a, JInt b => cast_if (decide (a = b))
    | JFloat a, JFloat b => cast_if (decide (a = b))
    | JStr a, JStr b => cast_if (decide (a = b))
    | JList a, JList b => cast_if (decide (a = b))
    | JMap a, JMap b => cast_if (decide (a = b))
    | _, _ => right _
    end); congruence.
Defined.

(** *** Metadata *)
Definition set_version (m : jobj) (s : string) : jobj :=
  if decide (s = EmptyString) then nested_del m ["metadata"; "resourceVersion"] else nested_set' m ["metadata"; "resourceVersion"] (JStr s).
(** SetLabels and SetAnnotations with a map that is not nil. *)
Definition set_strings (m : jobj) (field : string) (l : jobj) : jobj := nested_set' m ["metadata"; field] (JMap l).
(** target.go:351-358, 362-369: the labels of an object with new ones on top.  A
    map of strings is kept as an object with strings. *)
Definition strings (l : list (string * string)) : jobj := map (fun kv => (kv.1, JStr kv.2)) l.
Definition add_strings (old new : list (string * string)) : jobj := foldl (fun acc kv => mset acc kv.1 (JStr kv.2)) (strings old) new.
(** target.go:347-371 mergeMetadata *)
Definition merge_metadata (obj new : jobj) : jobj :=
  let obj := match get_labels new with Some l => set_strings obj "labels" (add_strings (default [] (get_labels obj)) l) | None => obj end in
  match get_annotations new with Some l => set_strings obj "annotations" (add_strings (default [] (get_annotations obj)) l) | None => obj end.

(** *** target.go *)

(** target.go:317-345 removeNestedMap, removeNestedList: every value becomes null;
    nulls vanish from maps. *)
Definition remove_entries (f : json -> json) : jobj -> jobj :=
  fix go (m : jobj) : jobj :=
    match m with
    | [] => []
    | (k, JNull) :: m => go m
    | (k, v) :: m => (k, f v) :: go m
    end.
Fixpoint remove_nested (v : json) : json :=
  match v with
  | JList l => JList (map remove_nested l)
  | JMap m => JMap (remove_entries remove_nested m)
  | _ => JNull
  end.
Definition remove_map (m : jobj) : jobj := remove_entries remove_nested m.

(** target.go:116-124: drop the fields that the new object lacks. *)
Definition drop_fields (obj new : jobj) : jobj :=
  List.filter (fun kv => String.eqb kv.1 "metadata" || match mget new kv.1 with Some _ => true | None => false end) obj.
(** target.go:127-137 *)
Definition copy_fields (obj new : jobj) : jobj :=
  foldl (fun acc kv => if String.eqb kv.1 "metadata" then acc else mset acc kv.1 kv.2) obj new.
(** target.go:142-144, 229-232, 294-297: kind and name as in the delta. *)
Definition restore (x : gvk) (obj new : jobj) : jobj := set_namespace (set_name (set_gvk obj x) (get_name new)) (get_namespace new).
(** target.go:114-147, the function that CreateOrUpdate gets *)
Definition updated (x : gvk) (new obj : jobj) : jobj :=
  restore x (merge_metadata (copy_fields (drop_fields obj new) new) new) new.
(** target.go:101-104, 201-204, 262-265: an object with kind and name *)
Definition shell (x : gvk) (new : jobj) : jobj := restore x [] new.
(** target.go:284-290: the patch that withdraws the fields of the delta *)
Definition withdrawal (new : jobj) : jobj :=
  let p := set_gvk (remove_map new) (get_gvk new) in
  let p := nested_set' p ["metadata"; "namespace"] (JStr (get_namespace new)) in
  nested_set' p ["metadata"; "name"] (JStr (get_name new)).

(** *** The cluster *)

(** The views, the native objects, the same as far as the cache has got them, and
    a counter for resource versions. *)
Record cluster := Cluster { cl_views : caches; cl_live : gmap (gvk * (string * string)) jobj; cl_cached : gmap (gvk * (string * string)) jobj; cl_next : N }.
Definition obj_key (m : jobj) : gvk * (string * string) := (get_gvk m, (get_namespace m, get_name m)).
Inductive failure := ENotFound | EConflict | EExists | EInvalid.
#[global] Instance failure_eq : EqDecision failure.
Proof. solve_decision. Defined.
Notation status := (option failure).
Definition of_view (r : vresult) : status := match r with VOk => None | VNotFound => Some ENotFound | VInvalid => Some EInvalid end.

Section writer.
Variable hash : string -> string.
(** Kinds with a status sub-resource; kinds that can be updated without giving a
    resource version. *)
Variable has_status unconditional : gvk -> bool.

Definition with_views (s : cluster) (c : caches) : cluster := Cluster c (cl_live s) (cl_cached s) (cl_next s).
Definition with_live (s : cluster) (k : gvk * (string * string)) (m : jobj) : cluster :=
  Cluster (cl_views s) (<[k := m]> (cl_live s)) (cl_cached s) (N.succ (cl_next s)).
Definition version_of (s : cluster) : string := pretty (cl_next s).
(** The status of [new] replaced by that of [old]. *)
Definition keep_status (old new : jobj) : jobj := match mget old "status" with Some v => mset new "status" v | None => mdel new "status" end.
(** The server writes the object unless nothing changes. *)
Definition commit (s : cluster) (k : gvk * (string * string)) (old new : jobj) : cluster * jobj :=
  let new := set_version (set_uid new (get_uid old)) (get_version old) in
  if decide (old = new) then (s, old)
  else let new := set_version new (version_of s) in (with_live s k new, new).
(** The resource version given is the current one, or need not be given. *)
Definition admits (old m : jobj) : status :=
  if String.eqb (get_version m) "" then if unconditional (get_gvk m) then None else Some EInvalid
  else if String.eqb (get_version m) (get_version old) then None else Some EConflict.

(** client.go:123-125 and composite.go: reads come from the caches. *)
Definition c_get (s : cluster) (x : gvk) (ns name : string) : option jobj :=
  if is_view_kind x then vc_get (cl_views s) x ns name else cl_cached s !! (x, (ns, name)).
(** client.go:83-88 Create *)
Definition c_create (s : cluster) (m : jobj) : cluster * status :=
  if is_view_kind (get_gvk m) then let '(c, _, r) := vc_add hash (cl_views s) m in (with_views s c, of_view r)
  else match cl_live s !! obj_key m with
       | Some _ => (s, Some EExists)
       | None =>
           let m' := if has_status (get_gvk m) then mdel m "status" else m in
           (with_live s (obj_key m) (set_version (set_uid m' (version_of s)) (version_of s)), None)
       end.
(** client.go:99-104 Update: also the object as the caller has it afterwards *)
Definition c_update (s : cluster) (m : jobj) : cluster * jobj * status :=
  if is_view_kind (get_gvk m) then let '(c, _, r) := cl_update hash (cl_views s) m in (with_views s c, m, of_view r)
  else match cl_live s !! obj_key m with
       | None => (s, m, Some ENotFound)
       | Some old =>
           match admits old m with
           | Some e => (s, m, Some e)
           | None => let '(s', m') := commit s (obj_key m) old (if has_status (get_gvk m) then keep_status old m else m) in (s', m', None)
           end
       end.
(** client.go:173-178 Update of the status of a native object *)
Definition c_update_status (s : cluster) (m : jobj) : cluster * status :=
  match cl_live s !! obj_key m with
  | None => (s, Some ENotFound)
  | Some old =>
      if has_status (get_gvk m) then
        match admits old m with
        | Some e => (s, Some e)
        | None => ((commit s (obj_key m) old (keep_status m old)).1, None)
        end
      else (s, Some ENotFound)
  end.
(** client.go:91-96 Delete *)
Definition c_delete (s : cluster) (m : jobj) : cluster * status :=
  if is_view_kind (get_gvk m) then let '(c, _, r) := vc_delete (cl_views s) m in (with_views s c, of_view r)
  else match cl_live s !! obj_key m with
       | None => (s, Some ENotFound)
       | Some _ => (Cluster (cl_views s) (delete (obj_key m) (cl_live s)) (cl_cached s) (cl_next s), None)
       end.
(** The cache of native objects catches up. *)
Definition synced (s : cluster) : cluster := Cluster (cl_views s) (cl_live s) (cl_live s) (cl_next s).

(** *** ctrlutils.go *)

(** What others do to the cluster before each client call of the writer. *)
Notation others := (list (cluster -> cluster)).
Definition meanwhile (s : cluster) (w : others) : cluster := match w with [] => s | f :: _ => f s end.

(** ctrlutils.go:59-79, 118-146: update the object and then its status. *)
Definition update_both (s : cluster) (w : others) (m : jobj) : cluster * others * jobj * status :=
  let '(s, m', e) := c_update (meanwhile s w) m in
  match e with
  | Some _ => (s, tail w, m', e)
  | None =>
      match mget m "status" with
      | Some (JMap st) =>
          if is_view_kind (get_gvk m') then (s, tail w, m', None)
          else let m' := mset m' "status" (JMap st) in
               let '(s, e) := c_update_status (meanwhile s (tail w)) m' in (s, tail (tail w), m', e)
      | _ => (s, tail w, m', None)
      end
  end.
(** ctrlutils.go:38-82 CreateOrUpdate, [f] changes the object.  The key of the
    object never changes here, so the check in mutate always passes. *)
Definition create_or_update (s : cluster) (w : others) (f : jobj -> jobj) (m : jobj) : cluster * others * status :=
  let s := meanwhile s w in
  match c_get s (get_gvk m) (get_namespace m) (get_name m) with
  | None =>
      let m := f m in
      let '(s, e) := c_create (meanwhile s (tail w)) m in
      match e with
      | None => (s, tail (tail w), None)
      | Some _ => let '(s, w, _, e) := update_both s (tail (tail w)) (f m) in (s, w, e)
      end
  | Some m => let '(s, w, _, e) := update_both s (tail w) (f m) in (s, w, e)
  end.
(** ctrlutils.go:97-144 Update with retry.RetryOnConflict (client-go: five
    attempts).  The object keeps its status from one attempt to the next, so it
    is the one that was saved at first.  [n] is the number of attempts left. *)
Fixpoint update_again (n : nat) (s : cluster) (w : others) (m : jobj) : cluster * status :=
  match n with
  | O => (s, Some EConflict)
  | S n =>
      match update_both s w m with
      | (s, w, m', Some EConflict) =>
          match n with
          | O => (s, Some EConflict)
          | S _ =>
              let s := meanwhile s w in
              match c_get s (get_gvk m') (get_namespace m') (get_name m') with
              | None => (s, Some ENotFound)
              | Some latest => update_again n s (tail w) (set_version m' (get_version latest))
              end
          end
      | (s, _, _, e) => (s, e)
      end
  end.
Definition attempts : nat := 5.

(** *** target.go, continued *)

Definition ignore_missing (e : status) : status := match e with Some ENotFound => None | e => e end.
(** target.go:90-177 update *)
Definition write_update (x : gvk) (s : cluster) (w : others) (t : dtype) (new : jobj) : cluster * status :=
  match t with
  | Deleted => let '(s, e) := c_delete (meanwhile s w) new in (s, ignore_missing e)
  | Sync => (s, None)
  | _ => let '(s, _, e) := create_or_update s w (updated x new) (shell x new) in (s, ignore_missing e)
  end.
(** target.go:191-195, 252-256: the object of the request is used if it is the
    one to be patched. *)
Definition usable (orig : option jobj) (new : jobj) : option jobj :=
  match orig with
  | Some o => if decide (get_gvk o = get_gvk new /\ get_namespace o = get_namespace new /\ get_name o = get_name new) then Some (obj_copy o) else None
  | None => None
  end.
(** target.go:179-315 patch *)
Definition write_patch (s : cluster) (w : others) (t : dtype) (new : jobj) (orig : option jobj) : cluster * status :=
  if decide (t = Sync) then (s, None) else
  let '(s, w, found) :=
    match usable orig new with
    | Some o => (s, w, Some o)
    | None => let s := meanwhile s w in (s, tail w, c_get s (get_gvk new) (get_namespace new) (get_name new))
    end in
  match found with
  | None => (s, match t with Deleted => None | _ => Some ENotFound end)
  | Some o =>
      match patch_object o (match t with Deleted => withdrawal new | _ => new end) with
      | None => (s, Some EInvalid)
      | Some o' => let '(s, e) := update_again attempts s w (restore (get_gvk new) o' new) in (s, ignore_missing e)
      end
  end.
Inductive target_type := Updater | Patcher.
(** target.go:64-88 Write, for a target of kind [x] *)
Definition target_write (ty : target_type) (x : gvk) (s : cluster) (w : others) (d : delta) (orig : option jobj) : cluster * status :=
  let new := set_gvk (obj_copy (d_obj d)) x in
  match ty with
  | Updater => write_update x s w (d_type d) new
  | Patcher => write_patch s w (d_type d) new orig
  end.
End writer.
