(** Specification vocabulary for pipelines: what the world outside sees. *)
From Verif Require Import JsonModel ObjModel ZSetModel OpsModel ExecModel PipelineModel ZSetSpec OpsSpec GatherSpec ExecSpec JsonSpec CleanSpec.

(** Namespaced names. *)
Notation oname := (string * string)%type.
Definition obj_id (m : jobj) : oname := (get_namespace m, get_name m).
(** Names without '/', as the Kubernetes API demands. *)
Definition plain (i : oname) : Prop := has_slash i.1 = false /\ has_slash i.2 = false.

(** *** The target, as the reader of the emitted operations sees it *)

Notation contents := (oname -> option jobj).
Definition no_objects : contents := fun _ => None.
(** What one operation does to it. *)
Definition apply_op (T : contents) (d : delta) : contents := fun i =>
  if decide (i = obj_id (d_obj d))
  then match d_type d with Deleted => None | _ => Some (d_obj d) end
  else T i.
Definition apply_ops (T : contents) (ds : list delta) : contents := foldl apply_op T ds.
(** A target that takes the operation, and one that refuses it. *)
Definition write_ok (T : contents) (d : delta) : option contents := Some (apply_op T d).
Definition write_fails (T : contents) (d : delta) : option contents := None.
(** A target that may refuse any operation. *)
Definition flaky (wr : contents -> delta -> option contents) : Prop := forall T d, wr T d = None \/ wr T d = Some (apply_op T d).
(** The events that reach the pipeline. *)
Definition queued (d : delta) : Prop := d_type d = Added \/ d_type d = Updated \/ d_type d = Replaced \/ d_type d = Deleted.
(** What an object store holds. *)
Definition held (s : store) : contents := fun i => s !! skey i.1 i.2.

(** The internal target cache holds exactly these contents. *)
Definition agree (tgt : store) (T : contents) : Prop := forall i, plain i -> held tgt i = T i.
(** An API group and version that survive being written as one string. *)
Definition gvk_ok (x : gvk) : Prop := parse_gv (gv_string (gvk_group x) (gvk_version x)) = Some (gvk_group x, gvk_version x).

(** The additions and deletions of object [i] in a list of deltas. *)
Definition adds_of (i : oname) (ds : list delta) : list jobj :=
  map d_obj (List.filter (fun d => bool_decide (d_type d = Added /\ obj_id (d_obj d) = i)) ds).
Definition dels_of (i : oname) (ds : list delta) : list jobj :=
  map d_obj (List.filter (fun d => bool_decide (d_type d = Deleted /\ obj_id (d_obj d) = i)) ds).
(** The operation that a group of additions and deletions of one name amounts
    to, given what the target held under that name. *)
Definition expected_op (adds dels : list jobj) (was : option jobj) : option delta :=
  match adds, dels, was with
  | [], [], _ => None
  | _ :: _, [], _ => Delta Upserted <$> last adds
  | [], d :: _, Some _ => Some (Delta Deleted d)
  | _ :: _, _ :: _, Some _ => Delta Upserted <$> last adds
  | _, _, None => None
  end.
(** Deltas as a Z-set yields them. *)
Definition raw_delta (d : delta) : Prop := (d_type d = Added \/ d_type d = Deleted) /\ plain (obj_id (d_obj d)).
(** The apiVersion and kind fields are as SetGroupVersionKind writes them. *)
Definition canonical (m : jobj) : Prop := obj_copy m = m.

(** *** The sources *)

(** The current source objects. *)
Notation world := (gmap (gvk * (string * string)) jobj).
Definition source_id (m : jobj) : gvk * oname := (get_gvk m, obj_id m).
(** An object without the UID that dcontroller gives to view objects. *)
Definition stripped (m : jobj) : jobj := remove_uid (obj_copy m).
Definition apply_event (w : world) (d : delta) : world :=
  match d_type d with
  | Deleted => delete (source_id (d_obj d)) w
  | _ => <[source_id (d_obj d) := stripped (d_obj d)]> w
  end.
Definition after (ds : list delta) : world := foldl apply_event ∅ ds.
(** The event is about source object [x]. *)
Definition about (x : gvk * oname) (d : delta) : bool := bool_decide (source_id (d_obj d) = x).

Section spec.
Context {FF : FloatFmt}.
Variable P : jobj -> bool.
#[local] Hint Extern 0 Docs => exact (json_docs_on P) : typeclass_instances.

(** An event that sources deliver: objects of the given sources, [Added] only
    for new objects, [Deleted] with the content last seen. *)
Definition event_ok (sources : list gvk) (w : world) (d : delta) : Prop :=
  owf (d_obj d) /\ clean (stripped (d_obj d)) = true /\ P (stripped (d_obj d)) = true
  /\ get_gvk (d_obj d) ∈ sources /\ is_Some (parse_gv (get_api_version (d_obj d)))
  /\ plain (obj_id (d_obj d))
  /\ match d_type d with
     | Added => w !! source_id (d_obj d) = None
     | Deleted => w !! source_id (d_obj d) = Some (stripped (d_obj d))
     | Updated | Replaced | Upserted => True
     | Sync => False
     end.
Fixpoint history_ok (sources : list gvk) (w : world) (ds : list delta) : Prop :=
  match ds with
  | [] => True
  | d :: ds => event_ok sources w d /\ history_ok sources (apply_event w d) ds
  end.

(** The objects of one Kind. *)
Definition of_kind (kd : string) (w : world) : list jobj :=
  map snd (List.filter (fun e => bool_decide (gvk_kind e.1.1 = kd)) (map_to_list w)).
(** [acc] holds, for each Kind, the objects of that Kind, each once. *)
Definition inputs_of (w : world) (kinds : list string) (acc : gmap string zset) : Prop :=
  forall kd, kd ∈ kinds -> exists a, acc !! kd = Some a /\ zwf a /\ forall k, zcount a k = occ k (of_kind kd w).

(** Feed a history to ConvertDeltaToZSet. *)
Fixpoint convert_run (src : gmap gvk store) (ds : list delta) : gmap gvk store * list (option zset) :=
  match ds with
  | [] => (src, [])
  | d :: ds =>
      let '(src1, r) := convert_delta P src d in
      let '(src2, rs) := convert_run src1 ds in
      (src2, r :: rs)
  end.
(** The source caches hold exactly the current source objects. *)
Definition mirrors (src : gmap gvk store) (w : world) : Prop :=
  forall g k m, default ∅ (src !! g) !! k = Some m <-> exists i, k = skey i.1 i.2 /\ w !! (g, i) = Some m.
(** The sum of what was fed for Kind [kd]. *)
Fixpoint fed (kd : string) (ds : list delta) (zs : list zset) (k : string) : Z :=
  match ds, zs with
  | d :: ds, z :: zs => (if decide (get_kind (d_obj d) = kd) then zcount z k else 0) + fed kd ds zs k
  | _, _ => 0
  end.

(** *** Pipelines *)

Variable sortv : list json -> list json.

(** Run a pipeline over a history, going on after errors. *)
Fixpoint pipe_run (o : order) (n : nat) (p : pipe P) (ds : list delta) : pipe P * list (option (list delta)) :=
  match ds with
  | [] => (p, [])
  | d :: ds =>
      let '(p1, r) := evaluate P sortv (osub o n) p d in
      let '(p2, rs) := pipe_run o (S n) p1 ds in
      (p2, r :: rs)
  end.

(** A result with at most one document, once, for each name. *)
Definition functional (B : zset) : Prop :=
  (forall k d, docs B !! k = Some d -> zcount B k = 1 /\ exists i, doc_id d = Some i /\ plain i)
  /\ (forall k1 k2 d1 d2 i, docs B !! k1 = Some d1 -> docs B !! k2 = Some d2 ->
        doc_id d1 = Some i -> doc_id d2 = Some i -> k1 = k2).
(** The target contents that a result stands for. *)
Definition shows (target : gvk) (B : zset) (T : contents) : Prop :=
  forall i m, T i = Some m <-> exists k d, docs B !! k = Some d /\ doc_id d = Some i /\ m = encapsulate target d i.1 i.2.

(** Stages that keep the name of each document and produce at most one document
    from it. *)
Definition keeps_names (p : op) : Prop :=
  match p with
  | OSelect ev | OProject ev =>
      forall d l, ev d = Some l -> (length l <= 1)%nat /\ forall d', In d' l -> doc_id d' = doc_id d
  | _ => False
  end.
(** The objects have names. *)
Definition named_history (ds : list delta) : Prop := Forall (fun d => is_Some (doc_id (stripped (d_obj d)))) ds.

(** A target cache as results of the pipeline fill it; no object carries a view UID. *)
Definition target_ok (target : gvk) (tgt : store) : Prop :=
  forall k m, tgt !! k = Some m -> exists i d, k = skey i.1 i.2 /\ plain i /\ owf d /\ doc_id d = Some i
    /\ m = encapsulate target d i.1 i.2 /\ remove_uid m = m /\ is_Some (key (m : jobj)).
(** The objects under names that Kubernetes allows. *)
Definition held_plain (s : store) : contents := fun i =>
  if bool_decide (has_slash i.1 = false /\ has_slash i.2 = false) then held s i else None.

(** The result documents already are objects of the target kind without a UID. *)
Definition fits (target : gvk) (B : zset) : Prop := forall k d i, docs B !! k = Some d -> doc_id d = Some i ->
  encapsulate target d i.1 i.2 = d /\ remove_uid d = d.

(** The states of a pipeline: any events and Syncs, failing or not, and any
    damage to the internal target cache. *)
Inductive session (p0 : pipe P) : pipe P -> Prop :=
  | s_here : session p0 p0
  | s_event p o d : session p0 p -> session p0 (evaluate P sortv o p d).1
  | s_sync p o : session p0 p -> session p0 (sync P sortv o p).1
  | s_damage p tgt : session p0 p -> session p0 (set_tgt P p tgt).

End spec.
