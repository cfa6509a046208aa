(** Model of pkg/pipeline/pipeline.go and zset_adaptor.go: events in, target
    operations out.

    Simplifications:
    - The stages of the pipeline are given as dbsp operators ([ps], [join]);
      their construction from expressions is in another file.
    - The mutex makes Evaluate and Sync atomic, so an execution is a sequence
      of calls.
    - Errors carry no message: [None]. *)
From Verif Require Export ObjModel ExecModel.

#[global] Instance gvk_cnt : Countable gvk.
Proof.
  refine (inj_countable' (fun x => (gvk_group x, gvk_version x, gvk_kind x)) (fun t => GVK t.1.1 t.1.2 t.2) _).
  by intros [].
Defined.

Section pipeline.
Context {FF : FloatFmt}.
(** Which documents are accepted, see [json_docs_on]. *)
Variable P : jobj -> bool.
#[local] Hint Extern 0 Docs => exact (json_docs_on P) : typeclass_instances.
Variable sortv : list json -> list json.

(** The lists returned by toolscache.Store come in map order. *)
Definition store_list (o : order) (s : store) : list jobj := map (fun kv => obj_copy kv.2) (o jobj [] s).

(** pkg/pipeline/zset_adaptor.go:16-107 ConvertDeltaToZSet: the new source
    caches, and the Z-set or an error. *)
Definition convert_delta (src : gmap gvk store) (d : delta) : gmap gvk store * option zset :=
  let obj0 := obj_copy (d_obj d) in
  let g := get_gvk obj0 in
  let st := default ∅ (src !! g) in
  let src := <[g := st]> src in
  let old := store_get st obj0 in
  let obj := remove_uid obj0 in
  match d_type d with
  | Added =>
      match add_doc zempty obj 1 with
      | None => (src, None)
      | Some z => (<[g := store_add st obj]> src, Some z)
      end
  | Updated | Replaced | Upserted =>
      match old with
      | Some m =>
          if obj_equal obj (remove_uid (obj_copy m)) then (src, Some zempty)
          else
            match z ← add_doc zempty m (-1); add_doc z obj 1 with
            | None => (src, None)
            | Some z => (<[g := store_add st obj]> src, Some z)
            end
      | None =>
          match add_doc zempty obj 1 with
          | None => (src, None)
          | Some z => (<[g := store_add st obj]> src, Some z)
          end
      end
  | Deleted =>
      match old with
      | None => (src, None)
      | Some m =>
          match add_doc zempty obj (-1) with
          | None => (src, None)
          | Some z => (<[g := store_delete st m]> src, Some z)
          end
      end
  | Sync => (src, None)
  end.

(** pkg/pipeline/zset_adaptor.go:161-169: wrap a document into an object of the
    target kind. *)
Definition encapsulate (target : gvk) (m : jobj) (ns name : string) : jobj :=
  set_namespace (set_name (set_gvk (set_content [] m) target) name) ns.
(** zset_adaptor.go:133-160: the namespace and name of a result document;
    [None] = invalid object. *)
Definition doc_id (m : jobj) : option (string * string) :=
  match mget m "metadata" with
  | Some (JMap meta) =>
      ns ← match mget meta "namespace" with
           | None => Some EmptyString
           | Some (JStr s) => Some s
           | Some _ => None
           end;
      match mget meta "name" with
      | Some (JStr s) => if decide (s = EmptyString) then None else Some (ns, s)
      | _ => None
      end
  | _ => None
  end.
Definition entry_delta (target : gvk) (e : jobj * Z) : option (list delta) :=
  let '(m, c) := e in
  if (c =? 0)%Z then Some []
  else
    '(ns, name) ← doc_id m;
    Some [Delta (if (0 <? c)%Z then Added else Deleted) (encapsulate target m ns name)].
(** zset_adaptor.go:110-174 ConvertZSetToDelta. *)
Definition convert_zset (o : order) (target : gvk) (z : zset) : option (list delta) :=
  es ← zlist o z;
  dss ← mapM (entry_delta target) es;
  Some (concat dss).

(** zset_adaptor.go:234-238 keyOps. *)
Record keyops := KeyOps { k_adds : list jobj; k_dels : list jobj; k_existed : bool }.
(** zset_adaptor.go:241-256: group by primary key; [None] = unexpected type. *)
Definition group_step (tgt : store) (gs : gmap string keyops) (d : delta) : option (gmap string keyops) :=
  let k := nsname (d_obj d) in
  let x := default (KeyOps [] [] (if store_get tgt (d_obj d) then true else false)) (gs !! k) in
  match d_type d with
  | Added => Some (<[k := KeyOps (k_adds x ++ [d_obj d]) (k_dels x) (k_existed x)]> gs)
  | Deleted => Some (<[k := KeyOps (k_adds x) (k_dels x ++ [d_obj d]) (k_existed x)]> gs)
  | _ => None
  end.
Fixpoint group_deltas (tgt : store) (gs : gmap string keyops) (ds : list delta) : option (gmap string keyops) :=
  match ds with
  | [] => Some gs
  | d :: ds => gs' ← group_step tgt gs d; group_deltas tgt gs' ds
  end.
(** zset_adaptor.go:261-304: the action for one key.  [last] and the head of
    the lists exist in the branches that use them. *)
Definition key_action (st : store * gmap string delta) (kx : string * keyops) : store * gmap string delta :=
  let '(tgt, out) := st in
  let '(k, x) := kx in
  match last (k_adds x), head (k_dels x) with
  | Some a, None => (store_add tgt a, <[k := Delta Upserted a]> out)
  | None, Some d =>
      if k_existed x then (store_delete tgt d, <[k := Delta Deleted d]> out) else (tgt, out)
  | Some a, Some _ =>
      if k_existed x then (store_add tgt a, <[k := Delta Upserted a]> out) else (tgt, out)
  | None, None => (tgt, out)
  end.
Definition is_type (t : dtype) (d : delta) : bool := if decide (d_type d = t) then true else false.
(** zset_adaptor.go:232-321 Reconcile.  A grouping error leaves the target
    cache alone; the store operations do not fail on these objects. *)
Definition reconcile (o : order) (tgt : store) (ds : list delta) : store * option (list delta) :=
  match group_deltas tgt ∅ ds with
  | None => (tgt, None)
  | Some gs =>
      let '(tgt', out) := foldl key_action (tgt, ∅) (o keyops [0%nat] gs) in
      (tgt', Some (List.filter (is_type Deleted) (map snd (o delta [1%nat] out))
                   ++ List.filter (is_type Upserted) (map snd (o delta [2%nat] out))))
  end.

(** pkg/pipeline/pipeline.go:58-72 Pipeline.  The graph holds the operators'
    state.  The snapshot executor is stateless; [p_snap] records whether
    p.snapshotGraph is set. *)
Record pipe := Pipe {
  p_sources : list gvk;
  p_target : gvk;
  p_graph : graph;
  p_src : gmap gvk store;
  p_tgt : store;
  p_snap : option graph }.

(** pipeline.go:77-170 New. *)
Definition pipe_new (target : gvk) (sources : list gvk) (join : option join_evaluator) (ps : list op) : option pipe :=
  g ← pipeline_new (map gvk_kind sources) join ps;
  Some (Pipe sources target g ∅ ∅ None).

Definition set_graph (p : pipe) (g : graph) : pipe := Pipe (p_sources p) (p_target p) g (p_src p) (p_tgt p) (p_snap p).
Definition set_src (p : pipe) (s : gmap gvk store) : pipe := Pipe (p_sources p) (p_target p) (p_graph p) s (p_tgt p) (p_snap p).
Definition set_tgt (p : pipe) (s : store) : pipe := Pipe (p_sources p) (p_target p) (p_graph p) (p_src p) s (p_snap p).
Definition set_snap (p : pipe) (g : option graph) : pipe := Pipe (p_sources p) (p_target p) (p_graph p) (p_src p) (p_tgt p) g.

(** pipeline.go:205-211: an empty Z-set for each source, then the changed one. *)
Definition empty_inputs (sources : list gvk) : gmap string zset :=
  foldl (fun m s => <[gvk_kind s := zempty]> m) ∅ sources.
(** pipeline.go:191-234 Evaluate. *)
Definition evaluate (o : order) (p : pipe) (d : delta) : pipe * option (list delta) :=
  let '(src, r) := convert_delta (p_src p) d in
  let p := set_src p src in
  match r with
  | None => (p, None)
  | Some z =>
      let inputs := <[get_kind (d_obj d) := z]> (empty_inputs (p_sources p)) in
      let '(g, r) := exec_process sortv (osub o 0) (p_graph p) inputs in
      let p := set_graph p g in
      match r with
      | None => (p, None)
      | Some y =>
          match convert_zset (osub o 1) (p_target p) y with
          | None => (p, None)
          | Some ds =>
              let '(tgt, r) := reconcile (osub o 2) (p_tgt p) ds in
              (set_tgt p tgt, r)
          end
      end
  end.

(** pipeline.go:266-287 and 297-305: the objects of a store as a Z-set. *)
Definition store_zset (o : order) (s : store) : option zset :=
  add_all zempty (map (fun m => (remove_uid (obj_copy m), 1)) (store_list o s)).
Definition sync_inputs (o : order) (p : pipe) : option (gmap string zset) :=
  foldl (fun acc s =>
      m ← acc;
      z ← match p_src p !! s with None => Some zempty | Some st => store_zset o st end;
      Some (<[gvk_kind s := z]> m)) (Some ∅) (p_sources p).
(** pipeline.go:247-332 Sync. *)
Definition sync (o : order) (p : pipe) : pipe * option (list delta) :=
  let gs := match p_snap p with Some g => Some g | None => to_snapshot_graph (p_graph p) end in
  let p := set_snap p gs in
  match gs with
  | None => (p, None)
  | Some gs =>
      match inputs ← sync_inputs (osub o 0) p;
            required ← (exec_process sortv (osub o 1) gs inputs).2;
            current ← store_zset (osub o 2) (p_tgt p);
            diff ← zsub (osub o 3) required current;
            convert_zset (osub o 4) (p_target p) diff with
      | None => (p, None)
      | Some ds =>
          let '(tgt, r) := reconcile (osub o 5) (p_tgt p) ds in
          (set_tgt p tgt, r)
      end
  end.

End pipeline.
