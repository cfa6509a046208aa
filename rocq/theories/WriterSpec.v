(** Specification vocabulary for the target writer. *)
From Verif Require Import WriterModel ZSetSpec OpsSpec GatherSpec ExecSpec JsonSpec CleanSpec PipelineSpec GroupSpec ValueSpec ViewSpec.

Notation okey := (gvk * oname)%type.
(** The object that the cluster has for a kind and name. *)
Definition stored (s : cluster) (k : okey) : option jobj :=
  if is_view_kind k.1 then vc_get (cl_views s) k.1 k.2.1 k.2.2 else cl_live s !! k.
(** A field of the metadata; a label or annotation. *)
Definition meta (m : jobj) (f : string) : option json := nested_get m ["metadata"; f].
Definition tag (m : jobj) (f k : string) : option string :=
  match string_map (meta m f) with Some l => (list_to_map l : gmap string string) !! k | None => None end.

(** The views come from an empty cache by client calls. *)
Definition views_ok (hash : string -> string) (c : caches) : Prop :=
  exists lister ops, lists_all lister /\ Forall op_ok ops /\ c = (cache_run hash lister ∅ ops).1.1.
(** The server stores well-formed objects under their names, with versions and UIDs. *)
Definition native_ok (s : cluster) : Prop := forall k m, cl_live s !! k = Some m ->
  is_view_kind k.1 = false /\ owf m /\ source_id m = k /\ obj_copy m = m /\ get_version m <> EmptyString /\ get_uid m <> EmptyString.
Definition cluster_ok (hash : string -> string) (s : cluster) : Prop :=
  (forall t, hash t <> EmptyString) /\ views_ok hash (cl_views s) /\ native_ok s.
(** The cache knows the current native object. *)
Definition up_to_date (s : cluster) (k : okey) : Prop := cl_cached s !! k = cl_live s !! k.

(** An object that can be written to a target of kind [x]. *)
Definition target_ok (x : gvk) (m : jobj) : Prop :=
  owf m /\ plain (obj_id m) /\ get_name m <> EmptyString /\ gvk_ok x
  /\ if is_view_kind x then own_kind x /\ nonegzero (JMap m) else True.
Definition upsert (t : dtype) : Prop := t = Added \/ t = Updated \/ t = Upserted \/ t = Replaced.
(** The field is a map or missing. *)
Definition map_or_none (v : option json) : Prop := match v with None | Some (JMap _) => True | _ => False end.

(** The labels (annotations) are those of the new object on top of the old ones. *)
Definition tags_on_top (f : string) (new : jobj) (old : option jobj) (m : jobj) : Prop :=
  forall k, tag m f k = match tag new f k with Some v => Some v | None => match old with Some o => tag o f k | None => None end end.
(** All other metadata but the version and the names are as they were. *)
Definition server_meta : list string := ["labels"; "annotations"; "name"; "namespace"; "resourceVersion"]%string.

(** Names as Kubernetes has them; only views take others. *)
Definition proper (k : okey) : Prop := is_view_kind k.1 = true -> plain k.2.
(** All other objects are as they were; all objects are. *)
Definition frame (s s' : cluster) (k : okey) : Prop := forall j, j <> k -> proper j -> stored s' j = stored s j.
Definition same_stored (s s' : cluster) : Prop := forall j, proper j -> stored s' j = stored s j.
(** The status after a write: a status sub-resource takes it only if the object
    exists and the status is a map. *)
Definition expected_status (has_status : gvk -> bool) (x : gvk) (new : jobj) (old : option jobj) : option json :=
  if is_view_kind x || negb (has_status x) then mget new "status"
  else match old with
       | None => None
       | Some o => match mget new "status" with Some (JMap st) => Some (JMap st) | _ => mget o "status" end
       end.
(** The object [m'] in place of [old] is what a write of [m] asks for. *)
Record holds (has_status : gvk -> bool) (x : gvk) (m : jobj) (old : option jobj) (m' : jobj) : Prop := {
  h_id : source_id m' = (x, obj_id m);
  h_fields : forall f, f ∉ ["apiVersion"; "kind"; "metadata"; "status"]%string -> mget m' f = mget m f;
  h_status : mget m' "status" = expected_status has_status x m old;
  h_labels : tags_on_top "labels" m old m';
  h_annotations : tags_on_top "annotations" m old m';
  h_meta : forall o f, old = Some o -> f ∉ server_meta -> meta m' f = meta o f }.

(** Positions away from names, versions and the like. *)
Definition far (ps : list pos) : Prop :=
  match ps with
  | Key k :: ps =>
      if decide (k = "metadata"%string) then
        match ps with Key f :: _ => f ∉ ["name"; "namespace"; "uid"; "resourceVersion"]%string | _ => False end
      else k ∉ ["apiVersion"; "kind"]%string
  | _ => False
  end.

(** A snapshot of the object, if given, is current. *)
Definition fresh (s : cluster) (k : okey) (orig : option jobj) : Prop := forall o, orig = Some o -> source_id o = k -> stored s k = Some o.
(** Many deltas in turn; between two the cache catches up. *)
Definition target_run (hash : string -> string) (has_status unconditional : gvk -> bool) (x : gvk) (s : cluster) (ds : list delta) : cluster :=
  foldl (fun s d => synced (target_write hash has_status unconditional Updater x s [] d None).1) s ds.
(** The last delta for a name. *)
Definition last_for (i : oname) (ds : list delta) : option delta :=
  foldl (fun acc d => if decide (obj_id (d_obj d) = i) then Some d else acc) None ds.

(** An earlier state of a native object, as the cache may still have it. *)
Definition earlier (k : okey) (o : jobj) : Prop := owf o /\ source_id o = k /\ obj_copy o = o /\ get_version o <> EmptyString /\ get_uid o <> EmptyString.
