(** Specification vocabulary for operator chains and executors. *)
From Verif Require Import ZSetModel OpsModel ExecModel ZSetSpec OpsSpec GatherSpec.

Section spec.
Context {DD : Docs}.
Variable sortv : list val -> list val.

(** Run a chain over a stream of inputs, one evaluation after the other, going
    on after errors.  The orders of different evaluations are independent. *)
Fixpoint chain_run (o : order) (n : nat) (cs : list cnode) (zs : list zset)
  : list cnode * list (option zset) :=
  match zs with
  | [] => (cs, [])
  | z :: zs =>
      let '(cs1, r) := chain_process sortv (osub o n) 0 cs z in
      let '(cs2, rs) := chain_run o (S n) cs1 zs in
      (cs2, r :: rs)
  end.

(** The same for a join operator fed with tuples of inputs. *)
Fixpoint jprocess_run (o : order) (n : nat) (j : jop) (dss : list (list zset)) : jop * list (option zset) :=
  match dss with
  | [] => (j, [])
  | ds :: dss =>
      let '(j1, r) := jprocess (osub o n) j ds in
      let '(j2, rs) := jprocess_run o (S n) j1 dss in
      (j2, r :: rs)
  end.

(** Result stream equals a stream of Z-sets. *)
Definition emits (rs : list (option zset)) (zs : list zset) : Prop :=
  Forall2 (fun r z => exists y, r = Some y /\ zwf y /\ zeq y z) rs zs.

(** The chain with every non-linear operator wrapped in I and D. *)
Definition lifted (F : op) : list cnode :=
  [CNode new_integrator false; CNode F true; CNode new_differentiator false].

(** Evaluating stages once, from scratch, on complete inputs.  Relational,
    because @gather may depend on the iteration order and on which of two
    documents with equal JSON is stored: each stage may see any representation
    of its input and any iteration order. *)
Inductive scratch : list op -> zset -> zset -> Prop :=
  | scratch_nil a b : zwf b -> zeq a b -> scratch [] a b
  | scratch_cons o p ps a a' b c :
      order_ok o -> zwf a' -> zeq a a' -> snd (process sortv o p a') = Some b ->
      scratch ps b c -> scratch (p :: ps) a c.

(** Stages a user can write; fresh state. *)
Definition op_ok (p : op) : Prop :=
  match p with
  | OProject ev => ev_ok ev /\ ev_keyed ev /\ ev_single ev
  | OSelect ev => ev_ok ev /\ ev_keyed ev
  | OUnwind ex tr => ev_ok (unwind_ev ex tr) /\ ev_keyed (unwind_ev ex tr)
  | OGather _ _ _ => True
  | ODistinct => True
  | _ => False
  end.

Definition user_chain (ps : list op) : list cnode := map (fun p => CNode p false) ps.

(** The state held by an operator is well formed. *)
Definition op_wf (p : op) : Prop :=
  match p with OInt s | ODiff s | ODelay s => zwf s | _ => True end.

(** All error-free behaviours of an operator on a stream: at each step the
    operator may see any representation of its input and any iteration order. *)
Inductive op_stream : op -> list zset -> list zset -> Prop :=
  | op_stream_nil p : op_stream p [] []
  | op_stream_cons o p z z' p1 y zs ys :
      order_ok o -> zwf z' -> zeq z z' -> process sortv o p z' = (p1, Some y) ->
      op_stream p1 zs ys -> op_stream p (z :: zs) (y :: ys).
(** All error-free behaviours of a chain. *)
Fixpoint chain_stream (cs : list cnode) (zs outs : list zset) : Prop :=
  match cs with
  | [] => Forall2 (fun z y => zwf y /\ zeq z y) zs outs
  | c :: cs => exists mid, op_stream (cn_op c) zs mid /\ chain_stream cs mid outs
  end.

(** Operators as constructed, before any evaluation. *)
Definition op_fresh (p : op) : Prop :=
  match p with OInt s | ODiff s | ODelay s => s = zempty | _ => True end.
(** User code respects identity and yields JSON-encodable documents. *)
Definition evs_ok (p : op) : Prop :=
  match p with
  | OProject ev | OSelect ev => ev_ok ev /\ ev_keyed ev
  | OProjSel pe se => (ev_ok pe /\ ev_keyed pe) /\ (ev_ok se /\ ev_keyed se)
  | OSelProjs se pes => match se with Some ev => ev_ok ev /\ ev_keyed ev | None => True end
                        /\ Forall (fun ev => ev_ok ev /\ ev_keyed ev) pes
  | _ => True
  end.
(** User code that never fails; projections yield one document. *)
Definition ev_total (ev : evaluator) : Prop := forall d, is_Some (key d) -> is_Some (ev d).
Definition evs_total (p : op) : Prop :=
  match p with
  | OProject ev => ev_total ev /\ ev_single ev
  | OSelect ev => ev_total ev
  | OProjSel pe se => (ev_total pe /\ ev_single pe) /\ ev_total se
  | OSelProjs se pes => match se with Some ev => ev_total ev | None => True end
                        /\ Forall (fun ev => ev_total ev /\ ev_single ev) pes
  | _ => True
  end.

(** The result of the operator is determined by the multiplicities of its input. *)
Definition op_det (p : op) : Prop :=
  forall o1 o2 a b, order_ok o1 -> order_ok o2 -> zwf a -> zwf b -> zeq a b ->
    res_eq (process sortv o1 p a).2 (process sortv o2 p b).2.

(** Operators whose state is fresh and whose result is determined. *)
Definition node_det (p : op) : Prop :=
  match p with OInt s | ODiff s | ODelay s => s = zempty | _ => op_det p end.
(** The same for inputs without negative multiplicities, which is all that a
    pipeline over actual objects accumulates. *)
Definition op_posdet (p : op) : Prop :=
  forall o1 o2 a b, order_ok o1 -> order_ok o2 -> zwf a -> zwf b -> zeq a b -> nonneg a ->
    res_eq (process sortv o1 p a).2 (process sortv o2 p b).2.

(** User code that never fails on encodable documents. *)
Definition op_total (p : op) : Prop :=
  match p with
  | OUnwind ex tr => ev_total (unwind_ev ex tr) /\ ev_keyed (unwind_ev ex tr)
  | OGather kx vx agg =>
      (forall d, is_Some (key d) -> is_Some (kx d) /\ is_Some (vx d))
      /\ (forall d v, kx d = Some (Some v) -> is_Some (vjson v))
      /\ (forall d v vs, is_Some (key d) -> exists r, agg d v vs = Some r /\ is_Some (key r))
  | _ => evs_ok p /\ evs_total p
  end.
Definition jev_total (jev : join_evaluator) : Prop := forall t, Forall (fun d => is_Some (key d)) t -> jev_good jev t.

(** Run an executor over a stream of named inputs. *)
Fixpoint exec_run (o : order) (n : nat) (g : graph) (ins : list (gmap string zset))
  : graph * list (option zset) :=
  match ins with
  | [] => (g, [])
  | i :: ins =>
      let '(g1, r) := exec_process sortv (osub o n) g i in
      let '(g2, rs) := exec_run o (S n) g1 ins in
      (g2, r :: rs)
  end.
(** The part of a stream of named inputs that belongs to input [nm]. *)
Definition column (nm : string) (ins : list (gmap string zset)) : list zset :=
  map (fun i => default zempty (i !! nm)) ins.

(** The stages a pipeline can contain (pipeline.go:118-143). *)
Definition user_op (p : op) : bool :=
  match p with OSelect _ | OProject _ | OUnwind _ _ | OGather _ _ _ => true | _ => false end.

(** Evaluating a graph as the user wrote it, once, on complete inputs: join (if
    any), then stage after stage.  Relational because of @gather. *)
Definition exec_scratch (g : graph) (acc : gmap string zset) (r : zset) : Prop :=
  exists zs J, mapM (fun n => acc !! n) (g_inputs g) = Some zs
    /\ match g_join g with
       | None => head zs = Some J
       | Some (JSnap jev n) => exists o, order_ok o /\ join_snapshot o jev n zs = Some J
       | _ => False
       end
    /\ scratch (map cn_op (g_chain g)) J r.

(** [acc] holds for each input the sum of everything fed to it. *)
Definition accumulated (acc : gmap string zset) (kinds : list string) (ins : list (gmap string zset)) : Prop :=
  forall nm, nm ∈ kinds -> exists a, acc !! nm = Some a /\ is_total a (column nm ins).

(** Well-formed named inputs. *)
Definition ins_wf (ins : list (gmap string zset)) : Prop := Forall (map_Forall (fun _ z => zwf z)) ins.
(** One evaluation's inputs: exactly one Z-set for each name. *)
Definition feeds (names : list string) (i : gmap string zset) : Prop :=
  size i = length names /\ (forall nm, nm ∈ names -> is_Some (i !! nm)) /\ map_Forall (fun _ z => zwf z) i.

(** A graph as constructed, before any evaluation. *)
Definition jop_fresh (j : jop) : Prop :=
  match j with JBinInc _ pl pr => pl = zempty /\ pr = zempty | JInc _ n prevs => prevs = repeat None n | _ => True end.
Definition graph_fresh (g : graph) : Prop :=
  Forall (fun c => op_fresh (cn_op c)) (g_chain g) /\ match g_join g with Some j => jop_fresh j | None => True end.
(** Not the n-ary incremental join. *)
Definition not_jinc (j : jop) : bool := match j with JInc _ _ _ => false | _ => true end.
(** The stages @select and @project. *)
Definition basic_op (p : op) : bool := match p with OSelect _ | OProject _ => true | _ => false end.

End spec.
