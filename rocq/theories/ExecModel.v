(** Model of pkg/dbsp/chain.go, executor.go, rewrite_engine.go and
    graph_converter.go.

    Simplifications:
    - Node identifiers are unique counters in Go; here a node is its position
      in the chain.  The [nodes] map and the [output] field, which nothing reads
      during execution, are dropped.
    - Join operators never occur in the chain part (AddToChain would accept
      one, but it would fail its arity check on the first evaluation). *)
From stdpp Require Export strings.
From Verif Require Export OpsModel.

Section exec.
Context {DD : Docs}.
Variable sortv : list val -> list val.

(** pkg/dbsp/chain.go:21-27 GraphNode. *)
Record cnode := CNode { cn_op : op; cn_lifted : bool }.
(** pkg/dbsp/chain.go:10-18 ChainGraph. *)
Record graph := Graph { g_inputs : list string; g_join : option jop; g_chain : list cnode }.

(** pkg/dbsp/chain.go:30-38 NewChainGraph. *)
Definition new_graph : graph := Graph [] None [].
(** pkg/dbsp/chain.go:41-54 AddInput: a second input of the same name is
    silently ignored. *)
Definition add_input (g : graph) (name : string) : graph :=
  if decide (name ∈ g_inputs g) then g
  else Graph (g_inputs g ++ [name]) (g_join g) (g_chain g).
(** pkg/dbsp/chain.go:73-86 SetJoin. *)
Definition set_join (g : graph) (j : jop) : graph := Graph (g_inputs g) (Some j) (g_chain g).
(** pkg/dbsp/chain.go:98-108 AddToChain. *)
Definition add_to_chain (g : graph) (p : op) : graph :=
  Graph (g_inputs g) (g_join g) (g_chain g ++ [CNode p false]).
(** pkg/dbsp/chain.go:122-143 Validate. *)
Definition validate (g : graph) : bool :=
  match g_inputs g, g_join g with
  | [], _ => false
  | _ :: _ :: _, None => false
  | _, _ => true
  end.

(** *** Executor *)

(** pkg/dbsp/executor.go:78-91: the linear chain. *)
Fixpoint chain_process (o : order) (n : nat) (cs : list cnode) (z : zset) : list cnode * option zset :=
  match cs with
  | [] => ([], Some z)
  | c :: cs =>
      let '(p', r) := process sortv (osub o n) (cn_op c) z in
      match r with
      | None => (CNode p' (cn_lifted c) :: cs, None)
      | Some z' =>
          let '(cs', r') := chain_process o (S n) cs z' in
          (CNode p' (cn_lifted c) :: cs', r')
      end
  end.

(** pkg/dbsp/executor.go:32-95 Process.  Log messages are dropped; the [String]
    calls that build them do not change anything. *)
Definition exec_process (o : order) (g : graph) (inputs : gmap string zset) : graph * option zset :=
  if negb (Nat.eqb (size inputs) (length (g_inputs g))) then (g, None) else
  match mapM (fun n => inputs !! n) (g_inputs g) with
  | None => (g, None)
  | Some ins =>
      match g_join g with
      | Some j =>
          let '(j', r) := jprocess (osub o 0) j ins in
          match r with
          | None => (Graph (g_inputs g) (Some j') (g_chain g), None)
          | Some z =>
              let '(cs, r) := chain_process (osub o 1) 0 (g_chain g) z in
              (Graph (g_inputs g) (Some j') cs, r)
          end
      | None =>
          match ins with
          | [] => (g, None)
          | z :: _ =>
              let '(cs, r) := chain_process (osub o 1) 0 (g_chain g) z in
              (Graph (g_inputs g) None cs, r)
          end
      end
  end.

(** pkg/dbsp/executor.go:110-123 resetOperator: IncrementalJoinOp is not in
    the list. *)
Definition reset_op (p : op) : op :=
  match p with
  | OInt _ => OInt zempty
  | ODiff _ => ODiff zempty
  | ODelay _ => ODelay zempty
  | _ => p
  end.
Definition reset_jop (j : jop) : jop :=
  match j with
  | JBinInc jev _ _ => JBinInc jev zempty zempty
  | _ => j
  end.
(** pkg/dbsp/executor.go:98-108 Reset. *)
Definition exec_reset (g : graph) : graph :=
  Graph (g_inputs g) (reset_jop <$> g_join g)
    (map (fun c => CNode (reset_op (cn_op c)) (cn_lifted c)) (g_chain g)).

(** *** Rewrite engine *)

Definition is_nonlinear (p : op) : bool := match optype p with NonLinear => true | _ => false end.
Definition is_int (p : op) : bool := match p with OInt _ => true | _ => false end.
Definition is_diff (p : op) : bool := match p with ODiff _ => true | _ => false end.
Definition is_distinct (p : op) : bool := match p with ODistinct => true | _ => false end.
Definition is_sel (p : op) : bool := match p with OSelect _ => true | _ => false end.
Definition is_proj (p : op) : bool := match p with OProject _ => true | _ => false end.

(** pkg/dbsp/op.go:80-93 IncrementalizeOp, for joins: the new operator if the
    conversion is possible. *)
Definition incrementalize_join (j : jop) : option jop :=
  match j with
  | JSnap jev n => Some (new_inc_join jev n)
  | JBin jev => Some (new_inc_bin_join jev)
  | _ => None
  end.

(** pkg/dbsp/rewrite_engine.go:96-109 NonLinearLiftingRule.CanApply. *)
Definition can_lift (cs : list cnode) : bool :=
  existsb (fun c => is_nonlinear (cn_op c) && negb (cn_lifted c)) cs.
(** pkg/dbsp/rewrite_engine.go:116-133 NonLinearLiftingRule.Apply. *)
Definition lift (cs : list cnode) : list cnode :=
  flat_map (fun c =>
    if is_nonlinear (cn_op c) && negb (cn_lifted c)
    then [CNode new_integrator false; CNode (cn_op c) true; CNode new_differentiator false]
    else [c]) cs.

(** Does some adjacent pair satisfy the test? *)
Fixpoint exists_pair (f : op -> op -> bool) (cs : list cnode) : bool :=
  match cs with
  | c1 :: ((c2 :: _) as tl) => f (cn_op c1) (cn_op c2) || exists_pair f tl
  | _ => false
  end.

(** pkg/dbsp/rewrite_engine.go:202-215 and 217-258
    IntegrationDifferentiationEliminationRule. *)
Definition can_id_elim (cs : list cnode) : bool := exists_pair (fun a b => is_int a && is_diff b) cs.
Fixpoint id_elim (cs : list cnode) : list cnode :=
  match cs with
  | c1 :: ((c2 :: l) as tl) =>
      if is_int (cn_op c1) && is_diff (cn_op c2) then id_elim l else c1 :: id_elim tl
  | _ => cs
  end.

(** pkg/dbsp/rewrite_engine.go:267-282 and 284-317 DistinctOptimizationRule. *)
Definition can_distinct (cs : list cnode) : bool := exists_pair (fun a b => is_distinct a && is_distinct b) cs.
Fixpoint distinct_opt (cs : list cnode) : list cnode :=
  match cs with
  | c1 :: ((c2 :: l) as tl) =>
      if is_distinct (cn_op c1) && is_distinct (cn_op c2) then c2 :: distinct_opt l else c1 :: distinct_opt tl
  | _ => cs
  end.

(** pkg/dbsp/rewrite_engine.go:345-365 hasSelectionThenProjections. *)
Definition has_sel_projs (cs : list cnode) : bool := exists_pair (fun a b => is_sel a && is_proj b) cs.
(** pkg/dbsp/rewrite_engine.go:367-380 hasConsecutiveProjections. *)
Definition has_projs (cs : list cnode) : bool := exists_pair (fun a b => is_proj a && is_proj b) cs.
(** pkg/dbsp/rewrite_engine.go:382-394 hasProjectThenSelect. *)
Definition has_proj_sel (cs : list cnode) : bool := exists_pair (fun a b => is_proj a && is_sel b) cs.

(** The maximal run of projections at the head of the chain. *)
Fixpoint span_projs (cs : list cnode) : list evaluator * list cnode :=
  match cs with
  | c :: l =>
      match cn_op c with
      | OProject ev => let '(evs, r) := span_projs l in (ev :: evs, r)
      | _ => ([], cs)
      end
  | [] => ([], [])
  end.
(** pkg/dbsp/rewrite_engine.go:397-476 fuseSelectionThenProjections, with the
    length of the chain as fuel. *)
Fixpoint fuse_sel_projs (fuel : nat) (cs : list cnode) : list cnode :=
  match fuel with
  | O => cs
  | S n =>
      match cs with
      | [] => []
      | c :: l =>
          match cn_op c with
          | OSelect se =>
              let '(evs, r) := span_projs l in
              match evs with
              | [] => c :: fuse_sel_projs n l
              | _ => CNode (OSelProjs (Some se) evs) (cn_lifted c) :: fuse_sel_projs n r
              end
          | OProject pe =>
              let '(evs, r) := span_projs l in
              match evs with
              | [] => c :: fuse_sel_projs n l
              | _ => CNode (OSelProjs None (pe :: evs)) (cn_lifted c) :: fuse_sel_projs n r
              end
          | _ => c :: fuse_sel_projs n l
          end
      end
  end.
(** pkg/dbsp/rewrite_engine.go:478-510 fuseProjectThenSelect. *)
Fixpoint fuse_proj_sel (cs : list cnode) : list cnode :=
  match cs with
  | c1 :: ((c2 :: l) as tl) =>
      match cn_op c1, cn_op c2 with
      | OProject pe, OSelect se => CNode (OProjSel pe se) (cn_lifted c2) :: fuse_proj_sel l
      | _, _ => c1 :: fuse_proj_sel tl
      end
  | _ => cs
  end.

(** One iteration of the loop in Optimize: the first applicable rule in priority
    order (rewrite_engine.go:29-35 and 65-74), [None] if none applies.  The
    LinearChainIncrementalization rule (rewrite_engine.go:165-194) applies only
    to joins inside the chain and is never enabled. *)
Definition rewrite_step (g : graph) : option graph :=
  let cs := g_chain g in
  let with_chain cs' := Graph (g_inputs g) (g_join g) cs' in
  match (match g_join g with Some j => incrementalize_join j | None => None end) with
  | Some j' => Some (Graph (g_inputs g) (Some j') cs)
  | None =>
      if can_lift cs then Some (with_chain (lift cs))
      else if can_id_elim cs then Some (with_chain (id_elim cs))
      else if can_distinct cs then Some (with_chain (distinct_opt cs))
      else if has_sel_projs cs || has_projs cs then Some (with_chain (fuse_sel_projs (length cs) cs))
      else if has_proj_sel cs then Some (with_chain (fuse_proj_sel cs))
      else None
  end.

(** pkg/dbsp/rewrite_engine.go:57-82: [n] is the number of iterations left.  An
    error is reported when all iterations are used up, even if the last one
    found nothing to do.  The boolean is true on success; the graph is modified
    in place in both cases. *)
Fixpoint optimize_loop (n : nat) (g : graph) : graph * bool :=
  match n with
  | O => (g, false)
  | S n' =>
      match rewrite_step g with
      | Some g' => optimize_loop n' g'
      | None => (g, negb (Nat.eqb n' 0))
      end
  end.
(** pkg/dbsp/rewrite_engine.go:52-83 Optimize. *)
Definition optimize (g : graph) : graph * bool :=
  if validate g then optimize_loop 20 g else (g, false).

(** pkg/pipeline/pipeline.go:77-150 New, the construction of the graph from the
    Kinds of the sources, the optional leading @join and the remaining stages.
    [None]: more than one source and no @join (lines 79-84).  Translation of the
    stages themselves (op.go) is user code here; [mk] builds the join operator. *)
Definition build_graph (mk : join_evaluator -> nat -> jop)
    (kinds : list string) (join : option join_evaluator) (ps : list op) : option graph :=
  match kinds, join with
  | _ :: _ :: _, None => None
  | _, _ =>
      let g0 := foldl add_input new_graph kinds in
      let g1 := match join with Some jev => set_join g0 (mk jev (length kinds)) | None => g0 end in
      Some (foldl add_to_chain g1 ps)
  end.
(** The pipeline as its author wrote it, with a snapshot join.  Not built by the
    code; it is what the specifications evaluate from scratch. *)
Definition pipeline_graph := build_graph new_join.
(** The graph the code builds: pkg/pipeline/op.go:274-281 NewJoinOp creates an
    incremental join. *)
Definition pipeline_inc_graph := build_graph new_inc_join.
(** pipeline.go:152-163: optimize and create the executor (NewExecutor,
    executor.go:18-29, validates once more). *)
Definition pipeline_new (kinds : list string) (join : option join_evaluator) (ps : list op) : option graph :=
  g ← pipeline_inc_graph kinds join ps;
  let '(g', ok) := optimize g in
  if ok && validate g' then Some g' else None.

(** *** Graph conversion *)

(** pkg/dbsp/graph_converter.go:63-77 convertToSnapshotJoin. *)
Definition snapshot_join (j : jop) : jop :=
  match j with
  | JInc jev n _ => new_join jev n
  | JBinInc jev _ _ => new_bin_join jev
  | _ => j
  end.
(** pkg/dbsp/graph_converter.go:80-94 convertToIncrementalJoin. *)
Definition incremental_join (j : jop) : jop :=
  match j with
  | JSnap jev n => new_inc_join jev n
  | JBin jev => new_inc_bin_join jev
  | _ => j
  end.
(** pkg/dbsp/graph_converter.go:97-122 convertToSnapshotOperator. *)
Definition snapshot_op (p : op) : option op :=
  match p with
  | OProject _ | OSelect _ | ODistinct | OProjSel _ _ | OSelProjs _ _ | OGather _ _ _ => Some p
  | OInt _ | ODiff _ | ODelay _ | OUnwind _ _ => None
  end.
(** pkg/dbsp/graph_converter.go:125-147 convertToIncrementalOperator. *)
Definition incremental_op (p : op) : option op :=
  match p with
  | OUnwind _ _ => None
  | _ => Some p
  end.
(** pkg/dbsp/graph_converter.go:25-60 convertGraph.  AddToChain creates fresh
    nodes, so the Lifted flags are lost. *)
Definition convert_graph (fj : jop -> jop) (fo : op -> option op) (g : graph) : option graph :=
  if validate g then
    cs ← mapM (fun c => fo (cn_op c)) (g_chain g);
    Some (Graph (g_inputs (foldl add_input new_graph (g_inputs g))) (fj <$> g_join g)
                (map (fun p => CNode p false) cs))
  else None.
(** pkg/dbsp/graph_converter.go:12-14 ToSnapshotGraph, 20-22 ToIncrementalGraph. *)
Definition to_snapshot_graph : graph -> option graph := convert_graph snapshot_join snapshot_op.
Definition to_incremental_graph : graph -> option graph := convert_graph incremental_join incremental_op.

End exec.
