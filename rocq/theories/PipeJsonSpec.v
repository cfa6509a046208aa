(** Specification vocabulary for pipelines. *)
From stdpp Require Import gmap.
From Verif Require Import ExprSpec PipeJsonModel.

(** The same kind of stage, and an expression that evaluates to the same *)
Definition same_stage {FF : FloatFmt} {EE : ExprEnv} (s s' : stage) : Prop :=
  st_kind s = st_kind s' /\ forall ctx, eval (st_expr s') ctx = eval (st_expr s) ctx.
Definition stage_names : list (string * stage_kind) :=
  [("@join", KJoin); ("@select", KSelect); ("@project", KProject); ("@unwind", KUnwind); ("@demux", KUnwind); ("@gather", KGather); ("@mux", KGather)]%string.

(** What one reads in memory *)
Inductive reads (h : pheap) : cell -> expr -> Prop :=
  | reads_val op arg v a : reads_arg h arg a -> reads h (Cell op arg v None) (Expr op a (LVal v))
  | reads_list op arg v ls a es : reads_arg h arg a -> reads_all h ls es -> reads h (Cell op arg v (Some ls)) (Expr op a (LList es))
with reads_arg (h : pheap) : option nat -> option expr -> Prop :=
  | reads_nil : reads_arg h None None
  | reads_some l c e : cells h !! l = Some c -> reads h c e -> reads_arg h (Some l) (Some e)
with reads_all (h : pheap) : list nat -> list expr -> Prop :=
  | reads_none : reads_all h [] []
  | reads_more l c e ls es : cells h !! l = Some c -> reads h c e -> reads_all h ls es -> reads_all h (l :: ls) (e :: es).
Definition reads_stage (h : pheap) (l : nat) (s : stage) : Prop :=
  exists c, stages h !! l = Some (st_kind s, c) /\ reads h c (st_expr s).
Definition reads_pipeline (h : pheap) (p : list nat) (ss : list stage) : Prop := Forall2 (reads_stage h) p ss.
