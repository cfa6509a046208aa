(** Model of the evaluation of expressions on memory: pkg/expression (expression.go,
    jsonpath.go) again, with maps and lists that are shared as Go shares them.

    ExprModel copies a value where Go passes a reference; here references are explicit, and
    the map that @dict builds is written in place, as in the program.  An evaluation that
    fails keeps what it has written so far.

    Simplifications:
    - Keys of map literals that are paths with anything but field names (wildcards,
      indices, filters) are errors.
    - The spare capacity of slices is not modelled.
    - Operators that read their whole argument and return a number, a truth value, a text
      or a new list are those of ExprModel.  What they do with a cyclic argument is not
      modelled: here they panic. *)
From Verif Require Export ExprModel.
#[local] Open Scope Z_scope.

(** *** Memory *)
Inductive hval := HNull | HBool (b : bool) | HInt (n : Z) | HFloat (f : spec_float) | HStr (s : string) | HRef (n : nat).
(** []any and map[string]any; the keys of a map are kept in order as in JsonModel. *)
Inductive cell := CList (l : list hval) | CMap (m : list (string * hval)).
Notation heap := (list cell).
Fixpoint kget {A} (m : list (string * A)) (k : string) : option A :=
  match m with [] => None | (k', v) :: m => if decide (k = k') then Some v else kget m k end.
Fixpoint kset {A} (m : list (string * A)) (k : string) (v : A) : list (string * A) :=
  match m with
  | [] => [(k, v)]
  | (k', v') :: m' =>
      match scmp k k' with
      | Lt => (k, v) :: m
      | Eq => (k, v) :: m'
      | Gt => (k', v') :: kset m' k v
      end
  end.
Fixpoint kdel {A} (m : list (string * A)) (k : string) : list (string * A) :=
  match m with [] => [] | (k', v') :: m' => if decide (k = k') then m' else (k', v') :: kdel m' k end.

Fixpoint collect_h {A B} (f : A -> option B) (l : list A) : option (list B) :=
  match l with [] => Some [] | x :: l => y ← f x; ys ← collect_h f l; Some (y :: ys) end.
(** The value as JSON; [fuel] bounds the depth. *)
Fixpoint reify (fuel : nat) (h : heap) (v : hval) : option json :=
  match v with
  | HNull => Some JNull
  | HBool b => Some (JBool b)
  | HInt n => Some (JInt n)
  | HFloat f => Some (JFloat f)
  | HStr s => Some (JStr s)
  | HRef n =>
      match fuel with
      | O => None
      | S fuel =>
          match h !! n with
          | Some (CList l) => JList <$> collect_h (reify fuel h) l
          | Some (CMap m) => JMap <$> collect_h (fun kv => (fun j => (kv.1, j)) <$> reify fuel h kv.2) m
          | None => None
          end
      end
  end.
(** No acyclic value is deeper than there are cells. *)
Definition json_of (h : heap) (v : hval) : option json := reify (S (length h)) h v.
(** A new copy of a JSON value. *)
Fixpoint alloc (j : json) (h : heap) : heap * hval :=
  match j with
  | JNull => (h, HNull)
  | JBool b => (h, HBool b)
  | JInt n => (h, HInt n)
  | JFloat f => (h, HFloat f)
  | JStr s => (h, HStr s)
  | JList l =>
      let '(h, vs) := (fix go (l : list json) (h : heap) : heap * list hval :=
        match l with [] => (h, []) | j :: l => let '(h, v) := alloc j h in let '(h, vs) := go l h in (h, v :: vs) end) l h in
      (h ++ [CList vs], HRef (length h))
  | JMap m =>
      let '(h, vs) := (fix go (m : jobj) (h : heap) : heap * list (string * hval) :=
        match m with [] => (h, []) | (k, j) :: m => let '(h, v) := alloc j h in let '(h, vs) := go m h in (h, (k, v) :: vs) end) m h in
      (h ++ [CMap vs], HRef (length h))
  end.

(** A Go call that may write memory. *)
Definition run A := heap -> heap * res A.
Definition hval_of {A} (v : A) : run A := fun h => (h, Val v).
Definition hfail {A} : run A := fun h => (h, Err).
Definition hpanic {A} : run A := fun h => (h, Panic).
Definition hbind {A B} (o : run A) (f : A -> run B) : run B :=
  fun h => match o h with (h, Val v) => f v h | (h, Err) => (h, Err) | (h, Panic) => (h, Panic) end.
Definition hnew (c : cell) : run hval := fun h => (h ++ [c], Val (HRef (length h))).
Definition hor {A} (o : option A) : run A := fun h => (h, or_err o).

(** Paths (ojg/jp): what a path finds, and the field names of a path that has nothing else. *)
Class HeapEnv := {
  hp_get : string -> heap -> hval -> option (list hval);
  steps : string -> option (list string) }.

Section eval.
Context {FF : FloatFmt} {EE : ExprEnv} {HE : HeapEnv}.

(** converter.go, as in ExprModel *)
Definition h_null (v : hval) : bool := match v with HNull => true | _ => false end.
Definition h_scalar (v : hval) : json :=
  match v with HNull => JNull | HBool b => JBool b | HInt n => JInt n | HFloat f => JFloat f | HStr s => JStr s | HRef _ => JNull end.
Definition h_list (v : hval) : run (list hval) := fun h =>
  match v with HRef n => match h !! n with Some (CList l) => (h, Val l) | _ => (h, Err) end | _ => (h, Err) end.
Definition h_map (v : hval) : run (list (string * hval)) := fun h =>
  match v with HRef n => match h !! n with Some (CMap m) => (h, Val m) | _ => (h, Err) end | _ => (h, Err) end.

(** jsonpath.go:11-40 GetJSONPath, 100-115 GetJSONPathRaw: the result is part of the document. *)
Record hctx := HCtx { hc_object : hval; hc_subject : hval }.
Definition h_get_raw (q : string) (v : hval) : run hval := fun h =>
  (h, match hp_get q h v with None => Err | Some [] => Val HNull | Some (v :: _) => Val v end).
Definition h_get_path (ctx : hctx) (key : string) : run hval :=
  match key with
  | String c _ =>
      if decide (c = dollar) then
        let key := if decide (key = "$.") then "$" else if decide (key = "$$.") then "$$" else key in
        match key with
        | String _ (String c2 k as key') => if bool_decide (c2 = dollar) && negb (h_null (hc_subject ctx)) then h_get_raw key' (hc_subject ctx) else h_get_raw key (hc_object ctx)
        | _ => h_get_raw key (hc_object ctx)
        end
      else hval_of (HStr key)
  | EmptyString => hval_of (HStr key)
  end.
(** ojg/jp Expr.Set along field names (recalled): missing maps are made, maps that are there
    are entered and written in place. *)
Fixpoint h_set (p : list string) (v : hval) (r : nat) : run unit := fun h =>
  match h !! r with
  | Some (CMap m) =>
      match p with
      | [] => (h, Err)
      | [k] => (<[r := CMap (kset m k v)]> h, Val tt)
      | k :: p' =>
          match kget m k with
          | None => h_set p' v (length h) (<[r := CMap (kset m k (HRef (length h)))]> h ++ [CMap []])
          | Some (HRef n) => h_set p' v n h
          | Some _ => (h, Err)
          end
      end
  | _ => (h, Err)
  end.
(** jsonpath.go:44-93 SetJSONPath on the map at [r] *)
Definition h_set_path (ctx : hctx) (key : string) (v : hval) (r : nat) : run unit :=
  match key with
  | EmptyString => hfail
  | String c _ =>
      hbind (match v with HStr s => h_get_path ctx s | _ => hval_of v end) (fun v =>
      if decide (key = "$.") then
        hbind (h_map v) (fun m => fun h =>
          match h !! r with
          | Some (CMap d) => (<[r := CMap (foldl (fun d kv => kset d kv.1 kv.2) (foldl (fun d kv => kdel d kv.1) d m) m)]> h, Val tt)
          | _ => (h, Err)
          end)
      else if decide (c = dollar) then match steps key with Some p => h_set p v r | None => hfail end
      else h_set [key] v r)
  end.

(** *** Operations, line numbers as in ExprModel *)
Definition hclo := hctx -> run hval.
Definition h_test (f : hclo) (ctx : hctx) : run bool := hbind (f ctx) (fun v => hor (as_bool (h_scalar v))).
Definition h_subject (ctx : hctx) (x : hval) : hctx := HCtx (hc_object ctx) x.
Fixpoint h_junction (stop : bool) (fs : list hclo) (ctx : hctx) : run hval :=
  match fs with
  | [] => hval_of (HBool (negb stop))
  | f :: fs => hbind (h_test f ctx) (fun b => if Bool.eqb b stop then hval_of (HBool stop) else h_junction stop fs ctx)
  end.
Definition h_cond (fs : list hclo) (ctx : hctx) : run hval :=
  match fs with
  | [c; t] => hbind (h_test c ctx) (fun b => if b then t ctx else hval_of HNull)
  | [c; t; e] => hbind (h_test c ctx) (fun b => if b then t ctx else e ctx)
  | _ => hfail
  end.
Definition h_defined_or (fs : list hclo) (ctx : hctx) : run hval :=
  match fs with
  | [a; b] => hbind (a ctx) (fun v => if h_null v then b ctx else hval_of v)
  | _ => hfail
  end.
Fixpoint h_switch_loop (ps : list (option (list hclo))) (ctx : hctx) : run hval :=
  match ps with
  | [] => hval_of HNull
  | Some [c; a] :: ps => hbind (h_test c ctx) (fun b => if b then a ctx else h_switch_loop ps ctx)
  | _ :: _ => hfail
  end.
Definition h_switch (ps : list (option (list hclo))) (ctx : hctx) : run hval := match ps with [] => hfail | _ => h_switch_loop ps ctx end.
Fixpoint h_filter_loop (f : hclo) (ctx : hctx) (l : list hval) : run (list hval) :=
  match l with
  | [] => hval_of []
  | x :: l => hbind (h_test f (h_subject ctx x)) (fun b => hbind (h_filter_loop f ctx l) (fun r => hval_of (if b : bool then x :: r else r)))
  end.
Fixpoint h_map_loop (f : hclo) (ctx : hctx) (l : list hval) : run (list hval) :=
  match l with
  | [] => hval_of []
  | x :: l => hbind (f (h_subject ctx x)) (fun v => hbind (h_map_loop f ctx l) (fun r => hval_of (v :: r)))
  end.
Fixpoint h_quant_loop (start stop final : bool) (f : hclo) (ctx : hctx) (l : list hval) : run hval :=
  match l with
  | [] => hval_of (HBool start)
  | x :: l => hbind (h_test f (h_subject ctx x)) (fun b => if Bool.eqb b stop then hval_of (HBool final) else h_quant_loop start stop final f ctx l)
  end.
Definition h_on_list {A} (ctx : hctx) (g : hclo) (k : list hval -> run A) : run A := hbind (g ctx) (fun v => hbind (h_list v) k).
(** marshaler.go:200-229 unpackList of the list at [v]: its first element if that is a list,
    else the list itself. *)
Definition h_unpack (v : hval) : run hval := hbind (h_list v) (fun l => fun h =>
  match l with
  | HRef n :: _ => match h !! n with Some (CList _) => (h, Val (HRef n)) | _ => (h, Val v) end
  | _ => (h, Val v)
  end).
Fixpoint h_list_loop (fs : list hclo) (ctx : hctx) : run (list hval) :=
  match fs with [] => hval_of [] | f :: fs => hbind (f ctx) (fun v => hbind (h_list_loop fs ctx) (fun r => hval_of (v :: r))) end.
(** expression.go:222-234: the map at [r] is filled key by key. *)
Fixpoint h_dict_loop (m : list (string * hclo)) (ctx : hctx) (r : nat) : run unit :=
  match m with
  | [] => hval_of tt
  | (k, f) :: m => hbind (f ctx) (fun v => hbind (h_set_path ctx k v r) (fun _ => h_dict_loop m ctx r))
  end.
Definition h_value (f : json -> res json) (v : hval) : run hval := fun h =>
  match json_of h v with
  | None => (h, Panic)
  | Some j => match f j with Val j => let '(h, v) := alloc j h in (h, Val v) | Err => (h, Err) | Panic => (h, Panic) end
  end.

Record hparts := HParts {
  hp_arg : option hclo;
  hp_args : option (option (list hclo));
  hp_pairs : option (option (list (option (list hclo))));
  hp_val : json;
  hp_list : option (list hclo);
  hp_map : option (list (string * hclo)) }.
Definition h_with_args {A B} (a : option (option A)) (k : A -> run B) : run B :=
  match a with None => hpanic | Some None => hfail | Some (Some x) => k x end.
(** Literals are numbers, truth values and texts. *)
Definition h_literal (v : json) : hval :=
  match v with JBool b => HBool b | JInt n => HInt n | JFloat f => HFloat f | JStr s => HStr s | _ => HNull end.
(** expression.go:60-1163 Evaluate *)
Definition heval_node (op : string) (p : hparts) (ctx : hctx) : run hval :=
  let operand := match hp_arg p with Some f => f ctx | None => hval_of (h_literal (hp_val p)) end in
  let quant start stop final :=
    h_with_args (hp_args p) (fun fs => match fs with [f; g] => h_on_list ctx g (h_quant_loop start stop final f ctx) | _ => hfail end) in
  match opcode_of op with
  | OEmpty => hfail
  | OBool => hbind operand (fun v => hor (HBool <$> as_bool (h_scalar v)))
  | OInt => hbind operand (fun v => hor (HInt <$> as_int (h_scalar v)))
  | OFloat => hbind operand (fun v => hor (HFloat <$> as_float (h_scalar v)))
  | OString =>
      hbind operand (fun v => hbind (hor (as_string (h_scalar v))) (fun s => hbind (h_get_path ctx s) (fun v =>
        hval_of (if is_str "@now" (h_scalar v) then HStr now else v))))
  | OList =>
      match hp_arg p with
      | Some f => hbind (f ctx) h_unpack
      | None => match hp_list p with Some fs => hbind (h_list_loop fs ctx) (fun l => hbind (hnew (CList l)) h_unpack) | None => hfail end
      end
  | ODict =>
      match hp_arg p with
      | Some f => hbind (f ctx) (fun v => hbind (h_map v) (fun _ => hval_of v))
      | None =>
          match hp_map p with
          | Some m => fun h => let r := length h in hbind (h_dict_loop (in_order m) ctx r) (fun _ => hval_of (HRef r)) (h ++ [CMap []])
          | None => hfail
          end
      end
  | ONoop => hval_of HNull
  | OCond => h_with_args (hp_args p) (fun fs => h_cond fs ctx)
  | ODefinedOr => h_with_args (hp_args p) (fun fs => h_defined_or fs ctx)
  | OSwitch => h_with_args (hp_pairs p) (fun ps => h_switch ps ctx)
  | OAnd => h_with_args (hp_args p) (fun fs => h_junction false fs ctx)
  | OOr => h_with_args (hp_args p) (fun fs => h_junction true fs ctx)
  | OFilter => h_with_args (hp_args p) (fun fs => match fs with [f; g] => h_on_list ctx g (fun l => hbind (h_filter_loop f ctx l) (fun r => hnew (CList r))) | _ => hfail end)
  | OAny => quant false true true
  | ONone => quant false true false
  | OAll => quant true false false
  | OMap =>
      h_with_args (hp_args p) (fun fs =>
        match fs with
        | f :: g :: _ => h_on_list ctx g (fun l => hbind (h_map_loop f ctx l) (fun r => hnew (CList r)))
        | _ => hpanic
        end)
  | OValue f => match hp_arg p with Some g => hbind (g ctx) (h_value f) | None => hfail end
  | OUnknown => match hp_arg p with Some g => hbind (g ctx) (fun _ => hfail) | None => hfail end
  | OPlain => match hp_arg p with Some g => hbind (g ctx) (fun v => hnew (CMap [(op, v)])) | None => hfail end
  end.
Fixpoint heval (e : expr) : hclo :=
  match e with
  | Expr op arg l =>
      heval_node op
        (HParts
           (match arg with Some a => Some (heval a) | None => None end)
           (match arg with Some a => Some (exp_list heval a) | None => None end)
           (match arg with Some a => Some (exp_list (fun p => exp_list heval p) a) | None => None end)
           (match l with LVal v => v | _ => JNull end)
           (match l with LList es => Some (map heval es) | _ => None end)
           (match l with LMap m => Some (map (fun kv => (kv.1, heval kv.2)) m) | _ => None end))
  end.
End eval.

(** *** The document of a stage *)
Section stage.
Context {FF : FloatFmt} {EE : ExprEnv} {HE : HeapEnv}.
(** dbsp/document.go:82-119 DeepCopyAny, DeepCopyDocument; a cyclic document overflows the
    stack. *)
Definition deep_copy (v : hval) : run hval := fun h =>
  match json_of h v with None => (h, Panic) | Some j => let '(h, v) := alloc j h in (h, Val v) end.
(** dbsp/op_linear.go:34-39, pipeline/op.go:64-65: @project works on a copy. *)
Definition eval_project (e : expr) (v : hval) : run hval := hbind (deep_copy v) (fun v => heval e (HCtx v HNull)).
(** dbsp/op_linear.go:76-78, pipeline/op.go:26-46: @select works on the document and
    passes it on. *)
Definition eval_select (e : expr) (v : hval) : run (option hval) :=
  hbind (heval e (HCtx v HNull)) (fun r => hbind (hor (as_bool (h_scalar r))) (fun b => hval_of (if b : bool then Some v else None))).
(** dbsp/fused_op.go:33-41, 106-130: as @project, without the copy. *)
Definition eval_fused_project (e : expr) (v : hval) : run hval := heval e (HCtx v HNull).
End stage.
