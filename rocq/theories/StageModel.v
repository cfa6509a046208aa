(** Model of pkg/pipeline/op.go and of the construction of a pipeline from its
    stages in pkg/pipeline/pipeline.go.

    Simplifications:
    - A panic of an expression counts as an error of the stage: controller-runtime
      recovers it and returns it as an error (recalled).
    - As in ExprModel values are copied where Go shares them (see HeapModel). *)
From Verif Require Export PipelineModel ValueModel PipeJsonModel.

Section stages.
Context {FF : FloatFmt} {EE : ExprEnv}.
Variable P : jobj -> bool.
#[local] Hint Extern 0 Docs => exact (json_docs_on P) : typeclass_instances.

(** Evaluate on a document; there is no subject at the top. *)
Definition eval_doc (e : expr) (d : jobj) : option json :=
  match eval e (Ctx (JMap d) JNull) with Val v => Some v | _ => None end.

(** op.go:26-46 SelectionOp.Evaluate, 246-265 JoinOp.Evaluate *)
Definition select_ev (e : expr) : evaluator := fun d =>
  v ← eval_doc e d; (fun b : bool => if b then [d] else []) <$> as_bool v.

(** converter.go:321-361 AsObject, AsObjectList, AsObjectOrObjectList *)
Definition as_object (v : json) : option jobj := match v with JMap m => Some m | _ => None end.
Definition as_objects (v : json) : option (list jobj) :=
  match as_object v with Some m => Some [m] | None => l ← as_list v; collect as_object l end.
(** op.go:79-84 the objects of a list are merged, starting with nil *)
Fixpoint merge_objects (v : json) (us : list jobj) : option json :=
  match us with [] => Some v | u :: us => v' ← ValueModel.merge v (JMap u); merge_objects v' us end.
(** op.go:66-92 ProjectionOp.Evaluate *)
Definition project_ev (e : expr) : evaluator := fun d =>
  v ← eval_doc e d; us ← as_objects v; r ← merge_objects JNull us; m ← as_object r; Some [m].

(** literal.go:60-66 GetLiteralString *)
Definition literal_string (e : expr) : option string := match ex_lit e with LVal v => as_string v | _ => None end.
(** fmt's %s (recalled) *)
Fixpoint sprint_s (v : json) : string :=
  match v with
  | JNull => "<nil>"
  | JBool true => "%!s(bool=true)"
  | JBool false => "%!s(bool=false)"
  | JInt n => "%!s(int64=" +:+ enc_int n +:+ ")"
  | JFloat f => "%!s(float64=" +:+ fmt_g f +:+ ")"
  | JStr s => s
  | JList l => "[" +:+ join_space ((fix go l := match l with [] => [] | v :: l => sprint_s v :: go l end) l) +:+ "]"
  | JMap m => "map[" +:+ join_space ((fix go (m : jobj) := match m with [] => [] | (k, v) :: m => (k +:+ ":" +:+ sprint_s v) :: go m end) m) +:+ "]"
  end.
Definition format_name (v : json) (i : Z) : string := (match v with JNull => "%!s(<nil>)" | _ => sprint_s v end) +:+ "-" +:+ enc_int i.
Definition name_path : string := "$.metadata.name".
(** op.go:104-107 listElem; its two fields are kept in a list *)
Definition list_elem (i : Z) (v : json) : json := JList [JInt i; v].
Fixpoint list_elems (i : Z) (l : list json) : list json := match l with [] => [] | v :: l => list_elem i v :: list_elems (i + 1) l end.
(** op.go:109-134 UnwindOp.Extract.  An error for a missing name never occurs: the
    lookup returns nil. *)
Definition unwind_extract (e : expr) : list_extractor := fun d =>
  match get_raw name_path (JMap d) with
  | Val _ => v ← eval_doc e d; l ← (if is_null v then Some [] else as_list v); Some (Some (list_elems 0 l))
  | _ => None
  end.
(** jsonpath.go:119-127 SetJSONPathRaw on a document *)
Definition set_raw (path : string) (v : json) (d : jobj) : option jobj := r ← jp_set path v (JMap d); as_object r.
(** op.go:136-165 UnwindOp.Transform *)
Definition unwind_transform (e : expr) : elem_transformer := fun d x =>
  match x with
  | JList [JInt i; v] =>
      path ← literal_string e;
      d ← set_raw path v d;
      match get_raw name_path (JMap d) with
      | Val name => set_raw name_path (JStr (format_name name i)) d
      | _ => None
      end
  | _ => None
  end.

(** op.go:192-199 gatherExtractor.Extract *)
Definition gather_extract (e : expr) : extractor := fun d =>
  v ← eval_doc e d; Some (if is_null v then None else Some v).
(** op.go:205-217 GatherOp.Transform *)
Definition gather_transform (e : expr) : aggregator := fun d _ vs =>
  path ← literal_string e; set_raw path (JList vs) d.

(** op_bilinear.go:121-135: the document with one field for each input *)
Fixpoint join_doc (acc : jobj) (names : list string) (ds : list jobj) : jobj :=
  match names, ds with n :: names, d :: ds => join_doc (mset acc n (JMap d)) names ds | _, _ => acc end.
(** op.go:267-275 NewJoinOp *)
Definition join_ev (names : list string) (e : expr) : join_evaluator := fun ds => select_ev e (join_doc [] names ds).

(** pipeline.go:110-147: the operator of a stage after the join; [None] is an error.
    op.go:49-52, 94-97, 167-173, 219-240. *)
Definition stage_op (s : stage) : option op :=
  let e := st_expr s in
  match st_kind s with
  | KSelect => Some (OSelect (select_ev e))
  | KProject => Some (OProject (project_ev e))
  | KUnwind => _ ← literal_string e; Some (OUnwind (unwind_extract e) (unwind_transform e))
  | KGather =>
      match exp_list (fun e => e) e with
      | Some [k; v] => Some (OGather (gather_extract k) (gather_extract v) (gather_transform v))
      | _ => None
      end
  | KJoin => None
  end.
(** pipeline.go:77-110: the join and the other stages *)
Definition split_join (p : list stage) : option expr * list stage :=
  match p with s :: p' => match st_kind s with KJoin => (Some (st_expr s), p') | _ => (None, p) end | [] => (None, []) end.
(** pipeline.go:77-170 New *)
Definition declare (target : gvk) (sources : list gvk) (p : list stage) : option (pipe P) :=
  let '(j, rest) := split_join p in
  if (1 <? length sources)%nat && (match j with None => true | Some _ => false end) then None
  else
    ps ← mapM stage_op rest;
    pipe_new P target sources (join_ev (map gvk_kind sources) <$> j) ps.
End stages.
