(** Model of the JSON form and the copies of pipelines:
    pkg/api/operator/v1alpha1/pipeline_types.go. *)
From stdpp Require Import gmap.
From Verif Require Export ExprModel.

(** pipeline_types.go:17-89 the stages; nil stages are not modelled *)
Inductive stage_kind := KJoin | KSelect | KProject | KUnwind | KGather.
Record stage := Stage { st_kind : stage_kind; st_expr : expr }.
(** OpType *)
Definition op_type (k : stage_kind) : string :=
  match k with KJoin => "@join" | KSelect => "@select" | KProject => "@project" | KUnwind => "@unwind" | KGather => "@gather" end.
(** 179-192 the names the decoder accepts *)
Definition kind_of_name (s : string) : option stage_kind :=
  if decide (s = "@join") then Some KJoin else if decide (s = "@select") then Some KSelect else if decide (s = "@project") then Some KProject
  else if decide (s = "@unwind") then Some KUnwind else if decide (s = "@demux") then Some KUnwind
  else if decide (s = "@gather") then Some KGather else if decide (s = "@mux") then Some KGather else None.

Section json.
Context {FF : FloatFmt} {EE : ExprEnv}.
(** 214-223 marshalPipelineOp *)
Definition marshal_stage (s : stage) : option json := j ← marshal (st_expr s); Some (JMap [(op_type (st_kind s), j)]).
(** 197-211 MarshalJSON *)
Definition marshal_pipeline (p : list stage) : option json :=
  match p with
  | [s] => marshal_stage s
  | _ => JList <$> collect marshal_stage p
  end.
(** 161-193 unmarshalPipelineOp.  All values are decoded before the number of keys is
    checked. *)
Definition unmarshal_stage (j : json) : res stage :=
  match j with
  | JMap m =>
      rbind ((fix go (m : jobj) := match m with [] => Val [] | (k, j) :: m => rbind (unmarshal j) (fun e => rbind (go m) (fun es => Val ((k, e) :: es))) end) m) (fun es =>
      match es with
      | [(k, e)] => match kind_of_name k with Some kd => Val (Stage kd e) | None => Err end
      | _ => Err
      end)
  | _ => Err
  end.
Fixpoint unmarshal_stages (l : list json) : res (list stage) :=
  match l with [] => Val [] | j :: l => rbind (unmarshal_stage j) (fun s => rbind (unmarshal_stages l) (fun p => Val (s :: p))) end.
(** 136-158 UnmarshalJSON; null is an empty array *)
Definition unmarshal_pipeline (j : json) : res (list stage) :=
  match j with
  | JList l => unmarshal_stages l
  | JNull => Val []
  | _ => rbind (unmarshal_stage j) (fun s => Val [s])
  end.
End json.

(** *** Copies, with pointers *)
(** An expression in memory: Arg is a pointer, and the elements of a literal list are
    behind a pointer, too.  Literal maps are not modelled. *)
Record cell := Cell { x_op : string; x_arg : option nat; x_val : json; x_elems : option (list nat) }.
Record pheap := PHeap { cells : gmap nat cell; stages : gmap nat (stage_kind * cell) (* *JoinOp, ... *) }.
(** 113-132 deepCopyPipelineOp: a new stage with a copy of the Expression struct *)
Definition copy_stage (h : pheap) (l : nat) : pheap * nat :=
  let l' := fresh (dom (stages h)) in
  match stages h !! l with
  | Some s => (PHeap (cells h) (<[l' := s]> (stages h)), l')
  | None => (h, l)
  end.
(** 92-110 DeepCopyInto *)
Fixpoint copy_stages (h : pheap) (p : list nat) : pheap * list nat :=
  match p with
  | [] => (h, [])
  | l :: p => let '(h1, l') := copy_stage h l in let '(h2, p') := copy_stages h1 p in (h2, l' :: p')
  end.
(** Writes of a program that holds the pipeline *)
Inductive pwrite := WStage (l : nat) (s : stage_kind * cell) | WCell (l : nat) (c : cell).
Definition pstep (h : pheap) (w : pwrite) : pheap :=
  match w with
  | WStage l s => PHeap (cells h) (<[l := s]> (stages h))
  | WCell l c => PHeap (<[l := c]> (cells h)) (stages h)
  end.
