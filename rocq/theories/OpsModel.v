(** Model of the operators of pkg/dbsp: op_linear.go, op_nonlinear.go,
    op_misc.go, op_bilinear.go, fused_op.go.

    Simplifications:
    - Operator names are dropped.
    - A stateful operator returns its new state next to its result.  On an error
      the state returned is the one the Go object is left with. *)
From Verif Require Export ZSetModel.

Section ops.
Context {DD : Docs}.

(** pkg/dbsp/op.go:8-11 Evaluator. [None] = error. *)
Definition evaluator := doc -> option (list doc).
(** pkg/dbsp/op.go:14-17 Extractor. Outer [None] = error, inner [None] = nil. *)
Definition extractor := doc -> option (option val).
(** An extractor used by unwind: [None] = error, [Some None] = nil or not a
    list (op_linear.go:133-141), [Some (Some l)] = the list. *)
Definition list_extractor := doc -> option (option (list val)).
(** pkg/dbsp/op.go:20-23 Transformer, as used by unwind and gather. *)
Definition elem_transformer := doc -> val -> option doc.
Definition aggregator := doc -> val -> list val -> option doc.
(** Evaluator of a join.  cartesianJoin builds the document
    {name_i: doc_i} and calls the Evaluator on it (op_bilinear.go:121-135); the
    composition is a function of the tuple. *)
Definition join_evaluator := list doc -> option (list doc).

(** The common loop of op_linear.go:34-46 and 79-92: evaluate each document and
    add the resulting documents with the original multiplicity. *)
Fixpoint lin_loop (ev : evaluator) (acc : zset) (es : list (doc * Z)) : option zset :=
  match es with
  | [] => Some acc
  | (d, c) :: es =>
      ds ← ev d;
      acc' ← add_all acc (map (fun d' => (d', c)) ds);
      lin_loop ev acc' es
  end.

(** pkg/dbsp/op_linear.go:26-49 ProjectionOp.Process. *)
Definition project (o : order) (ev : evaluator) (z : zset) : option zset :=
  es ← entries o z; lin_loop ev zempty es.

(** pkg/dbsp/op_linear.go:70-95 SelectionOp.Process. *)
Definition select (o : order) (ev : evaluator) (z : zset) : option zset :=
  es ← entries o z; lin_loop ev zempty es.

(** pkg/dbsp/op_linear.go:143-158, inner loop of UnwindOp.Process. *)
Fixpoint unwind_elems (tr : elem_transformer) (d : doc) (c : Z) (acc : zset) (vs : list val) : option zset :=
  match vs with
  | [] => Some acc
  | v :: vs =>
      d' ← tr d v;
      acc' ← add_doc acc d' c;
      unwind_elems tr d c acc' vs
  end.
(** pkg/dbsp/op_linear.go:124-159. *)
Fixpoint unwind_loop (ex : list_extractor) (tr : elem_transformer) (acc : zset) (es : list (doc * Z)) : option zset :=
  match es with
  | [] => Some acc
  | (d, c) :: es =>
      ov ← ex d;
      match ov with
      | None => unwind_loop ex tr acc es
      | Some vs => acc' ← unwind_elems tr d c acc vs; unwind_loop ex tr acc' es
      end
  end.
(** pkg/dbsp/op_linear.go:116-162 UnwindOp.Process. *)
Definition unwind (o : order) (ex : list_extractor) (tr : elem_transformer) (z : zset) : option zset :=
  es ← entries o z; unwind_loop ex tr zempty es.

(** pkg/dbsp/op_nonlinear.go:119-123 GroupData. *)
Record group_data := GroupData { gd_key : val; gd_values : list val; gd_doc : doc }.

(** pkg/dbsp/op_nonlinear.go:135-144 removeFirstMatch: errors of
    computeJSONAny are ignored (both give the empty string). *)
Fixpoint remove_first_match (vs : list val) (x : val) : list val :=
  match vs with
  | [] => []
  | v :: vs => if decide (vjson v = vjson x) then vs else v :: remove_first_match vs x
  end.
Fixpoint remove_n (n : nat) (vs : list val) (x : val) : list val :=
  match n with O => vs | S n => remove_n n (remove_first_match vs x) x end.

(** pkg/dbsp/op_nonlinear.go:78-90: add or remove [value] according to the
    multiplicity. *)
Definition upd_values (vs : list val) (v : val) (m : Z) : list val :=
  if 0 <? m then vs ++ repeat v (Z.to_nat m)
  else if m <? 0 then remove_n (Z.to_nat (- m)) vs v
  else vs.

(** pkg/dbsp/op_nonlinear.go:43-90, step 1: grouping. *)
Fixpoint gather_groups (kx vx : extractor) (gs : gmap ident group_data) (es : list (doc * Z))
  : option (gmap ident group_data) :=
  match es with
  | [] => Some gs
  | (d, m) :: es =>
      ogk ← kx d;
      match ogk with
      | None => gather_groups kx vx gs es
      | Some gk =>
          ov ← vx d;
          match ov with
          | None => gather_groups kx vx gs es
          | Some v =>
              j ← vjson gk;
              let g := default (GroupData gk [] d) (gs !! j) in
              gather_groups kx vx
                (<[j := GroupData (gd_key g) (upd_values (gd_values g) v m) (gd_doc g)]> gs) es
          end
      end
  end.

(** pkg/dbsp/op_nonlinear.go:92-113, step 2: aggregation.  [sortv] is
    sortValues (op_nonlinear.go:148-175), applied when SortGatherValues
    (dbsp.go:38) is set and the group has more than one value. *)
Fixpoint gather_aggregate (sortv : list val -> list val) (agg : aggregator) (acc : zset)
    (l : list (ident * group_data)) : option zset :=
  match l with
  | [] => Some acc
  | (_, g) :: l =>
      let vs := match gd_values g with _ :: _ :: _ => sortv (gd_values g) | vs => vs end in
      d ← agg (gd_doc g) (gd_key g) vs;
      acc' ← add_doc acc d 1;
      gather_aggregate sortv agg acc' l
  end.

(** pkg/dbsp/op_nonlinear.go:33-116 GatherOp.Process. *)
Definition gather (o : order) (sortv : list val -> list val) (kx vx : extractor) (agg : aggregator)
    (z : zset) : option zset :=
  es ← entries (osub o 0) z;
  gs ← gather_groups kx vx ∅ es;
  gather_aggregate sortv agg zempty (o group_data [1%nat] gs).

(** pkg/dbsp/fused_op.go:22-56 ProjectThenSelectOp.Process. *)
Fixpoint pts_inner (sel : evaluator) (c : Z) (acc : zset) (ds : list doc) : option zset :=
  match ds with
  | [] => Some acc
  | d :: ds =>
      fs ← sel d;
      acc' ← add_all acc (map (fun d' => (d', c)) fs);
      pts_inner sel c acc' ds
  end.
Fixpoint pts_loop (proj sel : evaluator) (acc : zset) (es : list (doc * Z)) : option zset :=
  match es with
  | [] => Some acc
  | (d, c) :: es =>
      ds ← proj d;
      acc' ← pts_inner sel c acc ds;
      pts_loop proj sel acc' es
  end.
Definition proj_then_sel (o : order) (proj sel : evaluator) (z : zset) : option zset :=
  es ← entries o z; pts_loop proj sel zempty es.

(** pkg/dbsp/fused_op.go:124-136: chain of projections, each must yield exactly
    one document. *)
Fixpoint proj_chain (pes : list evaluator) (d : doc) : option doc :=
  match pes with
  | [] => Some d
  | pe :: pes =>
      ds ← pe d;
      match ds with
      | [d'] => proj_chain pes d'
      | _ => None
      end
  end.
Fixpoint stp_inner (pes : list evaluator) (c : Z) (acc : zset) (ds : list doc) : option zset :=
  match ds with
  | [] => Some acc
  | d :: ds =>
      d' ← proj_chain pes d;
      acc' ← add_doc acc d' c;
      stp_inner pes c acc' ds
  end.
Fixpoint stp_loop (sel : option evaluator) (pes : list evaluator) (acc : zset) (es : list (doc * Z)) : option zset :=
  match es with
  | [] => Some acc
  | (d, c) :: es =>
      ds ← match sel with Some s => s d | None => Some [d] end;
      acc' ← stp_inner pes c acc ds;
      stp_loop sel pes acc' es
  end.
(** pkg/dbsp/fused_op.go:96-145 SelectThenProjectionsOp.Process. *)
Definition sel_then_projs (o : order) (sel : option evaluator) (pes : list evaluator) (z : zset) : option zset :=
  es ← entries o z; stp_loop sel pes zempty es.

(** pkg/dbsp/op_misc.go:186-195 AddOp, 210-219 SubtractOp, 234-243 NegateOp:
    these types lack OpType and so are not [Operator]s, they cannot be put in a
    chain.  InputOp (op_misc.go:138-143) has arity 0. *)
Definition add_op (o : order) (inputs : list zset) : option zset :=
  match inputs with [a; b] => zadd o a b | _ => None end.
Definition subtract_op (o : order) (inputs : list zset) : option zset :=
  match inputs with [a; b] => zsub o a b | _ => None end.
Definition negate_op (o : order) (inputs : list zset) : option zset :=
  match inputs with [a] => zsub o zempty a | _ => None end.
Definition input_op (data : zset) (inputs : list zset) : option zset :=
  match inputs with [] => Some (deep_copy data) | _ => None end.

(** Chain operators (arity 1) with their state. *)
Inductive op :=
  | OProject (ev : evaluator)
  | OSelect (ev : evaluator)
  | OUnwind (ex : list_extractor) (tr : elem_transformer)
  | OGather (kx vx : extractor) (agg : aggregator)
  | ODistinct
  | OInt (state : zset)                 (* op_misc.go:33-44 IntegratorOp *)
  | ODiff (prev : zset)                 (* op_misc.go:75-86 DifferentiatorOp *)
  | ODelay (buffer : zset)              (* op_misc.go:247-258 DelayOp *)
  | OProjSel (proj sel : evaluator)
  | OSelProjs (sel : option evaluator) (projs : list evaluator).

(** pkg/dbsp/op.go:28-33 and the OpType methods. *)
Inductive op_type := Linear | Bilinear | NonLinear | Structural.
Definition optype (p : op) : op_type :=
  match p with OGather _ _ _ | ODistinct => NonLinear | _ => Linear end.

Variable sortv : list val -> list val.

(** [Process] of each chain operator (its single input given). *)
Definition process (o : order) (p : op) (z : zset) : op * option zset :=
  match p with
  | OProject ev => (p, project o ev z)
  | OSelect ev => (p, select o ev z)
  | OUnwind ex tr => (p, unwind o ex tr z)
  | OGather kx vx agg => (p, gather o sortv kx vx agg z)
  | ODistinct => (p, zdistinct o z)                       (* op_misc.go:20-29 *)
  | OInt s =>                                             (* op_misc.go:47-62 *)
      match zadd o s z with
      | None => (p, None)
      | Some s' => (OInt s', Some (deep_copy s'))
      end
  | ODiff s =>                                            (* op_misc.go:89-106 *)
      match zsub o z s with
      | None => (p, None)
      | Some d => (ODiff (deep_copy z), Some d)
      end
  | ODelay b => (ODelay (deep_copy z), Some (deep_copy b)) (* op_misc.go:261-275 *)
  | OProjSel pe se => (p, proj_then_sel o pe se z)
  | OSelProjs se pes => (p, sel_then_projs o se pes z)
  end.

(** *** Joins *)

(** Loop over the documents of one input, op_bilinear.go:147-165. *)
Fixpoint join_loop (o : order) (f : nat -> doc -> Z -> option zset) (n : nat) (acc : zset)
    (es : list (doc * Z)) : option zset :=
  match es with
  | [] => Some acc
  | (d, c) :: es =>
      t ← f n d c;
      acc' ← zadd (osub o n) acc t;
      join_loop o f (S n) acc' es
  end.

(** pkg/dbsp/op_bilinear.go:120-168 cartesianJoin.  [ds] is the prefix of
    currentDocs in reverse, [m] the product of currentMults so far. *)
Fixpoint cjoin (o : order) (jev : join_evaluator) (inputs : list zset) (ds : list doc) (m : Z) : option zset :=
  match inputs with
  | [] =>
      js ← jev (rev ds);
      add_all zempty (map (fun d => (d, m)) js)
  | z :: rest =>
      es ← entries (osub o 0) z;
      join_loop (osub o 2)
        (fun n d c => cjoin (osub (osub o 1) n) jev rest (d :: ds) (m * c)) 0 zempty es
  end.

(** pkg/dbsp/op_bilinear.go:30-36 JoinOp.Process. *)
Definition join_snapshot (o : order) (jev : join_evaluator) (n : nat) (inputs : list zset) : option zset :=
  if decide (length inputs = n) then cjoin o jev inputs [] 1 else None.

(** pkg/dbsp/op_bilinear.go:102-114 computeTerm: inputs of one term. *)
Fixpoint term_inputs (i : Z) (mask : Z) (deltas prevs : list zset) : list zset :=
  match deltas, prevs with
  | d :: deltas, p :: prevs =>
      (if Z.testbit mask i then d else p) :: term_inputs (i + 1) mask deltas prevs
  | _, _ => []
  end.

(** pkg/dbsp/op_bilinear.go:76-88, the sum over masks. *)
Fixpoint mask_loop (o : order) (jev : join_evaluator) (deltas prevs : list zset) (n : nat)
    (acc : zset) (masks : list Z) : option zset :=
  match masks with
  | [] => Some acc
  | mask :: masks =>
      t ← cjoin (osub (osub o 0) n) jev (term_inputs 0 mask deltas prevs) [] 1;
      acc' ← zadd (osub (osub o 1) n) acc t;
      mask_loop o jev deltas prevs (S n) acc' masks
  end.

(** pkg/dbsp/op_bilinear.go:90-97: prevStates[i] = prevStates[i].Add(delta). *)
Fixpoint update_prevs (o : order) (n : nat) (prevs deltas : list zset) : option (list zset) :=
  match prevs, deltas with
  | p :: prevs, d :: deltas =>
      p' ← zadd (osub o n) p d;
      ps ← update_prevs o (S n) prevs deltas;
      Some (p' :: ps)
  | _, _ => Some []
  end.

(** pkg/dbsp/op_bilinear.go:64-100 IncrementalJoinOp.Process.  The nil initial
    states (op_bilinear.go:70-74) are replaced by empty Z-sets on first use.
    Simplification: an error while updating prevStates (lines 91-97) keeps the
    old list; C02 shows Add cannot fail on reachable Z-sets. *)
Definition join_inc (o : order) (jev : join_evaluator) (n : nat) (prevs : list (option zset))
    (deltas : list zset) : list (option zset) * option zset :=
  if decide (length deltas = n) then
    let ps := map (default zempty) prevs in
    match mask_loop (osub o 0) jev deltas ps 0 zempty (seqZ 1 (2 ^ Z.of_nat n - 1)) with
    | None => (map Some ps, None)
    | Some r =>
        match update_prevs (osub o 1) 0 ps deltas with
        | None => (map Some ps, None)
        | Some ps' => (map Some ps', Some r)
        end
    end
  else (prevs, None).

(** pkg/dbsp/op_bilinear.go:200-227, loops of BinaryJoinOp.Process. *)
Fixpoint bjoin_add (acc : zset) (m : Z) (js : list doc) : option zset :=
  match js with
  | [] => Some acc
  | j :: js => acc' ← add_doc_copy acc j m; bjoin_add acc' m js
  end.
Fixpoint bjoin_inner (jev : join_evaluator) (l : doc) (lc : Z) (acc : zset) (rs : list (doc * Z)) : option zset :=
  match rs with
  | [] => Some acc
  | (r, rc) :: rs =>
      js ← jev [l; r];
      acc' ← bjoin_add acc (lc * rc) js;
      bjoin_inner jev l lc acc' rs
  end.
Fixpoint bjoin_outer (o : order) (jev : join_evaluator) (right : zset) (n : nat) (acc : zset)
    (ls : list (doc * Z)) : option zset :=
  match ls with
  | [] => Some acc
  | (l, lc) :: ls =>
      rs ← entries (osub o n) right;
      acc' ← bjoin_inner jev l lc acc rs;
      bjoin_outer o jev right (S n) acc' ls
  end.
(** pkg/dbsp/op_bilinear.go:191-230 BinaryJoinOp.Process. *)
Definition bjoin (o : order) (jev : join_evaluator) (l r : zset) : option zset :=
  ls ← entries (osub o 0) l; bjoin_outer (osub o 1) jev r 0 zempty ls.

(** pkg/dbsp/op_bilinear.go:263-310 IncrementalBinaryJoinOp.Process. *)
Definition bjoin_inc (o : order) (jev : join_evaluator) (pl pr dl dr : zset) : (zset * zset) * option zset :=
  let r :=
    t1 ← bjoin (osub o 0) jev dl dr;
    t2 ← bjoin (osub o 1) jev pl dr;
    t3 ← bjoin (osub o 2) jev dl pr;
    r1 ← zadd (osub o 3) t1 t2;
    zadd (osub o 4) r1 t3 in
  match r with
  | None => ((pl, pr), None)
  | Some r =>
      match zadd (osub o 5) pl dl with
      | None => ((pl, pr), None)
      | Some pl' =>
          match zadd (osub o 6) pr dr with
          | None => ((pl', pr), None)
          | Some pr' => ((pl', pr'), Some r)
          end
      end
  end.

(** Join operators with their state. *)
Inductive jop :=
  | JSnap (jev : join_evaluator) (n : nat)
  | JInc (jev : join_evaluator) (n : nat) (prevs : list (option zset))
  | JBin (jev : join_evaluator)
  | JBinInc (jev : join_evaluator) (pl pr : zset).

Definition jprocess (o : order) (j : jop) (inputs : list zset) : jop * option zset :=
  match j with
  | JSnap jev n => (j, join_snapshot o jev n inputs)
  | JInc jev n prevs =>
      let '(ps, r) := join_inc o jev n prevs inputs in (JInc jev n ps, r)
  | JBin jev =>
      match inputs with [l; r] => (j, bjoin o jev l r) | _ => (j, None) end
  | JBinInc jev pl pr =>
      match inputs with
      | [dl; dr] => let '(ps, r) := bjoin_inc o jev pl pr dl dr in (JBinInc jev ps.1 ps.2, r)
      | _ => (j, None)
      end
  end.

(** Constructors: op_bilinear.go:16-23, 49-57, 178-184, 249-260;
    op_misc.go:39-44, 81-86, 253-258. *)
Definition new_join jev n : jop := JSnap jev n.
Definition new_inc_join jev n : jop := JInc jev n (repeat None n).
Definition new_bin_join jev : jop := JBin jev.
Definition new_inc_bin_join jev : jop := JBinInc jev zempty zempty.
Definition new_integrator : op := OInt zempty.
Definition new_differentiator : op := ODiff zempty.
Definition new_delay : op := ODelay zempty.

End ops.
