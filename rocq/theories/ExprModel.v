(** Model of the expression language: pkg/expression (expression.go,
    converter.go, jsonpath.go, selector.go, marshaler.go, literal.go).

    Simplifications:
    - The values of an evaluation are those of JsonModel; literals of other Go
      types (int, []any) are not modelled.
    - The text of an error is not modelled, a panic is a result of its own.
    - JSONPath (ojg/jp), strconv.ParseFloat, the hash, the clock, the random
      numbers and the order in which Go iterates over a map are parameters.  The
      clock and the random numbers do not change during an evaluation.
    - A value is copied where Go shares it.  HeapModel has evaluation on shared memory, where
      jp.Set can write into the input document. *)
From Verif Require Export JsonModel ObjModel.
#[local] Open Scope Z_scope.

(** expression.go:52-57 Expression.  [LVal JNull] is a nil Literal. *)
Inductive expr := Expr (op : string) (arg : option expr) (l : lit)
with lit :=
  | LVal (v : json)
  | LList (es : list expr)
  | LMap (m : list (string * expr)).
Definition ex_op (e : expr) : string := match e with Expr op _ _ => op end.
Definition ex_arg (e : expr) : option expr := match e with Expr _ a _ => a end.
Definition ex_lit (e : expr) : lit := match e with Expr _ _ l => l end.

(** The result of a Go call: a value, an error or a panic. *)
Inductive res (A : Type) := Val (v : A) | Err | Panic.
#[global] Arguments Val {A} v. #[global] Arguments Err {A}. #[global] Arguments Panic {A}.
Definition rbind {A B} (r : res A) (f : A -> res B) : res B := match r with Val v => f v | Err => Err | Panic => Panic end.
Definition is_null (v : json) : bool := match v with JNull => true | _ => false end.
Definition is_str (t : string) (v : json) : bool := match v with JStr s => String.eqb s t | _ => false end.
Definition or_err {A} (o : option A) : res A := match o with Some v => Val v | None => Err end.

(** *** Numbers *)
Definition f64_of_int (n : Z) : spec_float := binary_normalize 53 1024 n 0 false.
Definition fadd : spec_float -> spec_float -> spec_float := SFadd 53 1024.
Definition fsub : spec_float -> spec_float -> spec_float := SFsub 53 1024.
Definition fmul : spec_float -> spec_float -> spec_float := SFmul 53 1024.
Definition fdiv : spec_float -> spec_float -> spec_float := SFdiv 53 1024.
Definition is_nan (f : spec_float) : bool := match f with S754_nan => true | _ => false end.
(** The builtin min and max on float64. *)
Definition fmin (a b : spec_float) : spec_float :=
  if is_nan a || is_nan b then S754_nan else if SFltb a b then a else if SFltb b a then b
  else match a, b with S754_zero s, S754_zero t => S754_zero (s || t) | _, _ => a end.
Definition fmax (a b : spec_float) : spec_float :=
  if is_nan a || is_nan b then S754_nan else if SFltb a b then b else if SFltb b a then a
  else match a, b with S754_zero s, S754_zero t => S754_zero (s && t) | _, _ => a end.
(** math.Floor and math.Ceil *)
Definition ffloor (f : spec_float) : spec_float :=
  match f with
  | S754_finite s m e => if (0 <=? e)%Z then f else binary_normalize 53 1024 (Z.shiftr (cond_Zopp s (Zpos m)) (- e)) 0 s
  | _ => f
  end.
Definition fceil (f : spec_float) : spec_float :=
  match f with
  | S754_finite s m e => if (0 <=? e)%Z then f else binary_normalize 53 1024 (- Z.shiftr (- cond_Zopp s (Zpos m)) (- e)) 0 s
  | _ => f
  end.
(** int64 arithmetic wraps around. *)
Definition wrap64 (n : Z) : Z := (n + 2 ^ 63) mod 2 ^ 64 - 2 ^ 63.
Definition in_int64 (n : Z) : bool := (- 2 ^ 63 <=? n) && (n <? 2 ^ 63).

(** strconv.ParseInt with base 10 and 64 bits *)
Definition digit (c : ascii) : option Z := let n := Z.of_N (N_of_ascii c) in if (48 <=? n) && (n <=? 57) then Some (n - 48) else None.
Fixpoint digits (acc : Z) (s : string) : option Z :=
  match s with
  | EmptyString => Some acc
  | String c s => match digit c with Some d => digits (10 * acc + d) s | None => None end
  end.
Definition parse_int (s : string) : option Z :=
  let unsigned t := match t with EmptyString => None | _ => digits 0 t end in
  let n := match s with
           | String c t => if decide (c = ch 45) then Z.opp <$> unsigned t else if decide (c = ch 43) then unsigned t else unsigned s
           | EmptyString => None
           end in
  match n with Some z => if in_int64 z then Some z else None | None => None end.

(** *** What lies outside the package *)
Class ExprEnv := {
  jp_get : string -> json -> option (list json); (* jp.ParseString and Expr.Get *)
  jp_set : string -> json -> json -> option json; (* jp.ParseString and Expr.Set: path, value, data *)
  parse_float : string -> option spec_float; (* strconv.ParseFloat *)
  fmt_g : spec_float -> string; (* fmt's %v of a float64 *)
  valid_key : string -> bool; (* apimachinery's validation of label keys and values *)
  valid_value : string -> bool;
  md5_base36 : string -> string; (* mogo/encoding/base36 *)
  now : string; (* the current time as text *)
  intn : Z -> Z; (* rand.Intn of a positive number *)
  iterate : list string -> list string (* the order of iteration over the keys of a map *) }.

Section eval.
Context {FF : FloatFmt} {EE : ExprEnv}.

(** *** Conversions *)
(** converter.go:17-28 AsList *)
Definition as_list (v : json) : option (list json) := match v with JList l => Some l | _ => None end.
(** converter.go:30-39 AsBool *)
Definition as_bool (v : json) : option bool := match v with JBool b => Some b | _ => None end.
(** converter.go:71-89 AsString: numbers are printed with %d, which is wrong for
    floats. *)
Definition as_string (v : json) : option string :=
  match v with
  | JStr s => Some s
  | JInt n => Some (enc_int n)
  | JFloat f => Some ("%!d(float64=" +:+ fmt_g f +:+ ")")
  | _ => None
  end.
(** converter.go:125-144 AsInt *)
Definition as_int (v : json) : option Z := match v with JInt n => Some n | JStr s => parse_int s | _ => None end.
(** converter.go:176-201 AsFloat *)
Definition as_float (v : json) : option spec_float :=
  match v with JInt n => Some (f64_of_int n) | JFloat f => Some f | JStr s => parse_float s | _ => None end.
(** AsStringList, AsIntList, AsFloatList: 91-110, 146-161, 203-218 *)
Fixpoint collect {A B} (f : A -> option B) (l : list A) : option (list B) :=
  match l with [] => Some [] | x :: l => y ← f x; ys ← collect f l; Some (y :: ys) end.
Definition as_list_of {B} (f : json -> option B) (v : json) : option (list B) := l ← as_list v; collect f l.
(** converter.go:234-263 AsIntOrFloat and AsIntOrFloatList: integers if all
    elements are, else floats *)
Inductive nums := Ints (l : list Z) | Floats (l : list spec_float).
Definition as_nums (v : json) : option nums :=
  match as_list_of as_int v with
  | Some l => Some (Ints l)
  | None => Floats <$> as_list_of as_float v
  end.
(** converter.go:265-284 AsBinaryIntOrFloatList *)
Inductive pair_of_nums := PInts (a b : Z) | PFloats (a b : spec_float).
Definition as_pair (v : json) : option pair_of_nums :=
  match as_nums v with
  | Some (Ints [a; b]) => Some (PInts a b)
  | Some (Floats [a; b]) => Some (PFloats a b)
  | _ => None
  end.

(** *** JSONPath *)
Record ectx := Ctx { c_object : json; c_subject : json }.
(** jsonpath.go:11-40 GetJSONPath and 100-115 GetJSONPathRaw *)
Definition dollar : ascii := ch 36.
Definition get_raw (q : string) (d : json) : res json :=
  match jp_get q d with None => Err | Some [] => Val JNull | Some (v :: _) => Val v end.
Definition get_path (ctx : ectx) (key : string) : res json :=
  match key with
  | String c _ =>
      if decide (c = dollar) then
        let key := if decide (key = "$.") then "$" else if decide (key = "$$.") then "$$" else key in
        match key with
        | String _ (String c2 k as key') => if bool_decide (c2 = dollar) && negb (is_null (c_subject ctx)) then get_raw key' (c_subject ctx) else get_raw key (c_object ctx)
        | _ => get_raw key (c_object ctx)
        end
      else Val (JStr key)
  | EmptyString => Val (JStr key)
  end.
(** jsonpath.go:44-93 SetJSONPath on a map *)
Definition set_path (ctx : ectx) (key : string) (v : json) (data : jobj) : res jobj :=
  match key with
  | EmptyString => Err
  | String c _ =>
      rbind (match v with JStr s => get_path ctx s | _ => Val v end) (fun v =>
      if decide (key = "$.") then
        match v with JMap m => Val (foldl (fun d kv => mset d kv.1 kv.2) (foldl (fun d kv => mdel d kv.1) data m) m) | _ => Err end
      else if decide (c = dollar) then
        match jp_set key v (JMap data) with Some (JMap d) => Val d | _ => Err end
      else Val (mset data key v))
  end.

(** *** Label selectors *)
(** fmt's %v *)
Fixpoint join_space (l : list string) : string :=
  match l with [] => EmptyString | [x] => x | x :: l => x +:+ " " +:+ join_space l end.
Fixpoint sprint (v : json) : string :=
  match v with
  | JNull => "<nil>"
  | JBool true => "true"
  | JBool false => "false"
  | JInt n => enc_int n
  | JFloat f => fmt_g f
  | JStr s => s
  | JList l => "[" +:+ join_space ((fix go l := match l with [] => [] | v :: l => sprint v :: go l end) l) +:+ "]"
  | JMap m => "map[" +:+ join_space ((fix go (m : jobj) := match m with [] => [] | (k, v) :: m => (k +:+ ":" +:+ sprint v) :: go m end) m) +:+ "]"
  end.
(** labels.Requirement with the operators that selector.go can produce *)
Inductive req := RIn (k : string) (vs : list string) | RNotIn (k : string) (vs : list string) | RExists (k : string) | RMissing (k : string).
(** labels.NewRequirement (recalled) *)
Definition req_ok (r : req) : bool :=
  match r with
  | RIn k vs | RNotIn k vs => valid_key k && forallb valid_value vs && negb (bool_decide (vs = []))
  | RExists k | RMissing k => valid_key k
  end.
(** labels.Requirement.Matches (recalled) *)
Definition req_matches (set : list (string * string)) (r : req) : bool :=
  let get k := snd <$> List.find (fun kv => String.eqb kv.1 k) set in
  match r with
  | RIn k vs => match get k with Some v => bool_decide (v ∈ vs) | None => false end
  | RNotIn k vs => match get k with Some v => negb (bool_decide (v ∈ vs)) | None => true end
  | RExists k => match get k with Some _ => true | None => false end
  | RMissing k => match get k with Some _ => false | None => true end
  end.
(** selector.go:35-89 convertToLabelSelector and metav1.LabelSelectorAsSelector
    (recalled); values given with Exists and DoesNotExist are refused. *)
Definition label_req (e : json) : option (list req) :=
  match e with
  | JMap m =>
      let str k := match mget m k with Some (JStr s) => s | _ => EmptyString end in
      let vs := match mget m "values" with Some (JList l) => map sprint l | _ => [] end in
      let k := str "key"%string in
      let op := str "operator"%string in
      if decide (op = "In") then Some [RIn k vs]
      else if decide (op = "NotIn") then Some [RNotIn k vs]
      else if decide (op = "Exists") then (match vs with [] => Some [RExists k] | _ => None end)
      else if decide (op = "DoesNotExist") then (match vs with [] => Some [RMissing k] | _ => None end)
      else None
  | _ => Some []
  end.
Definition selector_reqs (sel : jobj) : option (list req) :=
  let equal (m : jobj) := map (fun kv : string * json => RIn kv.1 [sprint kv.2]) m in
  let ml := match mget sel "matchLabels" with Some (JMap m) => Some m | _ => None end in
  let me := match mget sel "matchExpressions" with Some (JList l) => Some l | _ => None end in
  match ml, me with
  | None, None => Some (equal sel)
  | _, _ => es ← collect label_req (default [] me); Some (equal (default [] ml) ++ concat es)
  end.
(** selector.go:11-33 MatchLabels *)
Definition match_labels (labels sel : jobj) : option bool :=
  rs ← selector_reqs sel;
  if forallb req_ok rs then Some (forallb (req_matches (map (fun kv => (kv.1, sprint kv.2)) labels)) rs) else None.

(** *** Operations on an evaluated argument: expression.go:709-1159 *)
(** expression.go:1139-1154 @hash: MD5 of the JSON text in base 36, cut or padded to six
    characters *)
Fixpoint repeat_x (n : nat) : string := match n with O => EmptyString | S n => String "x" (repeat_x n) end.
Definition op_hash (v : json) : res json :=
  match enc v with
  | None => Err
  | Some js =>
      let h := md5_base36 js in
      Val (JStr (if (String.length h <? 6)%nat then h +:+ repeat_x (6 - String.length h) else String.substring 0 6 h))
  end.
Definition cmp_op (fi : Z -> Z -> bool) (ff : spec_float -> spec_float -> bool) (v : json) : res json :=
  match as_pair v with Some (PInts a b) => Val (JBool (fi a b)) | Some (PFloats a b) => Val (JBool (ff a b)) | None => Err end.
Definition arith_op (fi : Z -> Z -> Z) (ff : spec_float -> spec_float -> spec_float) (v : json) : res json :=
  match as_pair v with Some (PInts a b) => Val (JInt (wrap64 (fi a b))) | Some (PFloats a b) => Val (JFloat (ff a b)) | None => Err end.
Definition float_op (ff : spec_float -> spec_float) (v : json) : res json :=
  match as_float v with Some f => Val (JFloat (ff f)) | None => Err end.
(** expression.go:1026-1068 @min and @max: nil for an empty list *)
Definition best_op (fi : Z -> Z -> Z) (ff : spec_float -> spec_float -> spec_float) (v : json) : res json :=
  match as_nums v with
  | Some (Ints (a :: l)) => Val (JInt (foldl fi a l))
  | Some (Floats (a :: l)) => Val (JFloat (foldl ff a l))
  | Some _ => Val JNull
  | None => Err
  end.
(** expression.go:736-748 @eq *)
Definition op_eq (v : json) : res json :=
  match as_list v with
  | Some [a; b] => Val (JBool (negb (is_null a) && negb (is_null b) && go_equal a b))
  | _ => Err
  end.
(** expression.go:1080-1105 @in *)
Definition op_in (v : json) : res json :=
  match as_list v with
  | Some [x; l] => match as_list l with Some l => Val (JBool (existsb (fun y => go_equal y x) l)) | None => Err end
  | _ => Err
  end.
(** expression.go:969-1000 @div *)
Definition as_num (v : json) : option spec_float := match as_int v with Some n => Some (f64_of_int n) | None => as_float v end.
Definition op_div (v : json) : res json :=
  match as_list v with
  | Some [a; b] => match as_num a, as_num b with Some x, Some y => Val (JFloat (fdiv x y)) | _, _ => Err end
  | _ => Err
  end.
(** expression.go:1002-1024 @sum *)
Definition op_sum (v : json) : res json :=
  match as_nums v with
  | Some (Ints l) => Val (JInt (foldl (fun a b => wrap64 (a + b)) 0 l))
  | Some (Floats l) => Val (JFloat (foldl fadd (S754_zero false) l))
  | None => Err
  end.
(** expression.go:750-764 @rnd: rand.Intn panics unless its argument is positive *)
Definition op_rnd (v : json) : res json :=
  match as_list_of as_int v with
  | Some [a; b] => if wrap64 (b - a) <=? 0 then Panic else Val (JInt (wrap64 (intn (wrap64 (b - a)) + a)))
  | _ => Err
  end.
(** expression.go:1122-1137 @range; allocating the list panics if its length is not
    an int64. *)
Definition op_range (v : json) : res json :=
  match as_list_of as_int v with
  | Some [a; b] =>
      let a := Z.min a b in
      if wrap64 (b - a) <? 0 then Panic else Val (JList (map (fun i : nat => JInt (a + Z.of_nat i)) (seq 0 (Z.to_nat (b - a)))))
  | _ => Err
  end.
(** expression.go:831-869 @selector *)
Definition op_selector (v : json) : res json :=
  match as_list v with
  | Some [s; l] =>
      if is_null s || is_null l then Val (JBool false)
      else match s, l with JMap s, JMap l => match match_labels l s with Some b => Val (JBool b) | None => Err end | _, _ => Err end
  | _ => Err
  end.
Definition op_concat (v : json) : res json :=
  match as_list_of as_string v with Some l => Val (JStr (foldl String.append EmptyString l)) | None => Err end.
Definition op_len (v : json) : res json := match as_list v with Some l => Val (JInt (Z.of_nat (length l))) | None => Err end.

(** *** Operations on unevaluated arguments *)
Definition clo := ectx -> res json.
Definition test (f : clo) (ctx : ectx) : res bool := rbind (f ctx) (fun v => or_err (as_bool v)).
Definition with_subject (ctx : ectx) (x : json) : ectx := Ctx (c_object ctx) x.

(** expression.go:389-413 @and, 415-439 @or: [stop] is the value that ends the loop *)
Fixpoint junction (stop : bool) (fs : list clo) (ctx : ectx) : res json :=
  match fs with
  | [] => Val (JBool (negb stop))
  | f :: fs => rbind (test f ctx) (fun b => if Bool.eqb b stop then Val (JBool stop) else junction stop fs ctx)
  end.
(** expression.go:249-290 @cond *)
Definition op_cond (fs : list clo) (ctx : ectx) : res json :=
  match fs with
  | [c; t] => rbind (test c ctx) (fun b => if b then t ctx else Val JNull)
  | [c; t; e] => rbind (test c ctx) (fun b => if b then t ctx else e ctx)
  | _ => Err
  end.
(** expression.go:292-317 @definedOr *)
Definition op_defined_or (fs : list clo) (ctx : ectx) : res json :=
  match fs with
  | [a; b] => rbind (a ctx) (fun v => if is_null v then b ctx else Val v)
  | _ => Err
  end.
(** expression.go:331-373 the loop of @switch; [None] is a pair that is not one *)
Fixpoint switch_loop (ps : list (option (list clo))) (ctx : ectx) : res json :=
  match ps with
  | [] => Val JNull
  | Some [c; a] :: ps => rbind (test c ctx) (fun b => if b then a ctx else switch_loop ps ctx)
  | _ :: _ => Err
  end.
Definition op_switch (ps : list (option (list clo))) (ctx : ectx) : res json := match ps with [] => Err | _ => switch_loop ps ctx end.
(** expression.go:441-487 @filter, 635-667 @map *)
Fixpoint filter_loop (f : clo) (ctx : ectx) (l : list json) : res (list json) :=
  match l with
  | [] => Val []
  | x :: l => rbind (test f (with_subject ctx x)) (fun b => rbind (filter_loop f ctx l) (fun r => Val (if b then x :: r else r)))
  end.
Fixpoint map_loop (f : clo) (ctx : ectx) (l : list json) : res (list json) :=
  match l with
  | [] => Val []
  | x :: l => rbind (f (with_subject ctx x)) (fun v => rbind (map_loop f ctx l) (fun r => Val (v :: r)))
  end.
(** expression.go:490-536 @any, 539-585 @none, 587-633 @all: start value, value
    that ends the loop, result at the end of the loop *)
Fixpoint quant_loop (start stop final : bool) (f : clo) (ctx : ectx) (l : list json) : res json :=
  match l with
  | [] => Val (JBool start)
  | x :: l => rbind (test f (with_subject ctx x)) (fun b => if Bool.eqb b stop then Val (JBool final) else quant_loop start stop final f ctx l)
  end.
(** The list argument of these operations. *)
Definition on_list {A} (ctx : ectx) (g : clo) (k : list json -> res A) : res A := rbind (g ctx) (fun v => rbind (or_err (as_list v)) k).

(** marshaler.go:200-229 unpackList on a list *)
Definition unpack (l : list json) : list json := match l with JList l' :: _ => l' | _ => l end.
(** expression.go:172-184 the loop of @list *)
Fixpoint list_loop (fs : list clo) (ctx : ectx) : res (list json) :=
  match fs with [] => Val [] | f :: fs => rbind (f ctx) (fun v => rbind (list_loop fs ctx) (fun r => Val (v :: r))) end.
(** expression.go:222-234 the loop of @dict *)
Fixpoint dict_loop (m : list (string * clo)) (ctx : ectx) (acc : jobj) : res jobj :=
  match m with
  | [] => Val acc
  | (k, f) :: m => rbind (f ctx) (fun v => rbind (set_path ctx k v acc) (fun acc => dict_loop m ctx acc))
  end.
Definition in_order {A} (m : list (string * A)) : list (string * A) :=
  omap (fun k => List.find (fun kv => String.eqb kv.1 k) m) (iterate (map fst m)).

(** *** The operators *)
Inductive opcode :=
  | OBool | OInt | OFloat | OString | OList | ODict
  | ONoop | OCond | ODefinedOr | OSwitch | OAnd | OOr | OFilter | OAny | ONone | OAll | OMap
  | OValue (f : json -> res json) (* applied to the evaluated argument *)
  | OUnknown | OPlain (* not starting with @ *) | OEmpty.
Definition unary_ops : list (string * (json -> res json)) :=
  [("@isnil"%string, fun v => Val (JBool (is_null v)));
   ("@exists"%string, fun v => Val (JBool (negb (is_null v))));
   ("@has"%string, fun v => Val (JBool (negb (is_null v))));
   ("@not"%string, fun v => match as_bool v with Some b => Val (JBool (negb b)) | None => Err end);
   ("@eq"%string, op_eq); ("@rnd"%string, op_rnd);
   ("@lt"%string, cmp_op Z.ltb SFltb); ("@lte"%string, cmp_op Z.leb SFleb);
   ("@gt"%string, cmp_op (fun a b => Z.ltb b a) (fun a b => SFltb b a));
   ("@gte"%string, cmp_op (fun a b => Z.leb b a) (fun a b => SFleb b a));
   ("@selector"%string, op_selector);
   ("@abs"%string, float_op SFabs); ("@ceil"%string, float_op fceil); ("@floor"%string, float_op ffloor);
   ("@add"%string, arith_op Z.add fadd); ("@sub"%string, arith_op Z.sub fsub); ("@mul"%string, arith_op Z.mul fmul);
   ("@div"%string, op_div); ("@sum"%string, op_sum); ("@min"%string, best_op Z.min fmin); ("@max"%string, best_op Z.max fmax);
   ("@len"%string, op_len); ("@in"%string, op_in); ("@concat"%string, op_concat); ("@range"%string, op_range); ("@hash"%string, op_hash)].
Definition special_ops : list (string * opcode) :=
  [("@bool"%string, OBool); ("@int"%string, OInt); ("@float"%string, OFloat); ("@string"%string, OString); ("@list"%string, OList); ("@dict"%string, ODict);
   ("@noop"%string, ONoop); ("@cond"%string, OCond); ("@definedOr"%string, ODefinedOr); ("@switch"%string, OSwitch);
   ("@and"%string, OAnd); ("@or"%string, OOr); ("@filter"%string, OFilter); ("@any"%string, OAny); ("@none"%string, ONone); ("@all"%string, OAll); ("@map"%string, OMap)].
Definition assoc {A} (k : string) (l : list (string * A)) : option A := snd <$> List.find (fun kv => String.eqb kv.1 k) l.
Definition at_sign (s : string) : bool := match s with String c _ => bool_decide (c = ch 64) | EmptyString => false end.
Definition opcode_of (op : string) : opcode :=
  match op with
  | EmptyString => OEmpty
  | _ =>
      match assoc op special_ops with
      | Some o => o
      | None =>
          match assoc op unary_ops with
          | Some f => OValue f
          | None => if at_sign op then OUnknown else OPlain
          end
      end
  end.

(** *** Evaluate *)
(** What a node needs of its parts: its evaluated argument, the argument as a list
    of expressions ([None] inside if AsExpOrExpList fails), the same with the
    elements taken as lists again, and the literal. *)
Record parts := Parts {
  p_arg : option clo;
  p_args : option (option (list clo));
  p_pairs : option (option (list (option (list clo))));
  p_val : json;
  p_list : option (list clo);
  p_map : option (list (string * clo)) }.
(** converter.go:296-319 AsExpOrExpList *)
Definition exp_list {A} (f : expr -> A) (e : expr) : option (list A) :=
  match e with
  | Expr op _ l => if decide (op = "@list") then match l with LList es => Some (map f es) | _ => None end else Some [f e]
  end.
(** A nil argument makes AsExpOrExpList panic. *)
Definition with_args {A B} (a : option (option A)) (k : A -> res B) : res B :=
  match a with None => Panic | Some None => Err | Some (Some x) => k x end.
(** expression.go:60-1163 Evaluate *)
Definition eval_node (op : string) (p : parts) (ctx : ectx) : res json :=
  let operand := match p_arg p with Some f => f ctx | None => Val (p_val p) end in
  let quant start stop final :=
    with_args (p_args p) (fun fs => match fs with [f; g] => on_list ctx g (quant_loop start stop final f ctx) | _ => Err end) in
  match opcode_of op with
  | OEmpty => Err
  | OBool => rbind operand (fun v => or_err (JBool <$> as_bool v))
  | OInt => rbind operand (fun v => or_err (JInt <$> as_int v))
  | OFloat => rbind operand (fun v => or_err (JFloat <$> as_float v))
  | OString =>
      rbind operand (fun v => rbind (or_err (as_string v)) (fun s => rbind (get_path ctx s) (fun v =>
        Val (if is_str "@now" v then JStr now else v))))
  | OList =>
      rbind (match p_arg p with
             | Some f => rbind (f ctx) (fun v => or_err (as_list v))
             | None => match p_list p with Some fs => list_loop fs ctx | None => Err end
             end) (fun l => Val (JList (unpack l)))
  | ODict =>
      match p_arg p with
      | Some f => rbind (f ctx) (fun v => match v with JMap m => Val (JMap m) | _ => Err end)
      | None => match p_map p with Some m => rbind (dict_loop (in_order m) ctx []) (fun m => Val (JMap m)) | None => Err end
      end
  | ONoop => Val JNull
  | OCond => with_args (p_args p) (fun fs => op_cond fs ctx)
  | ODefinedOr => with_args (p_args p) (fun fs => op_defined_or fs ctx)
  | OSwitch => with_args (p_pairs p) (fun ps => op_switch ps ctx)
  | OAnd => with_args (p_args p) (fun fs => junction false fs ctx)
  | OOr => with_args (p_args p) (fun fs => junction true fs ctx)
  | OFilter => with_args (p_args p) (fun fs => match fs with [f; g] => on_list ctx g (fun l => rbind (filter_loop f ctx l) (fun r => Val (JList r))) | _ => Err end)
  | OAny => quant false true true
  | ONone => quant false true false (* 563: [v] starts as false *)
  | OAll => quant true false false
  | OMap =>
      with_args (p_args p) (fun fs =>
        match fs with
        | f :: g :: _ => on_list ctx g (fun l => rbind (map_loop f ctx l) (fun r => Val (JList r)))
        | _ => Panic (* args[0], args[1] out of range *)
        end)
  | OValue f => match p_arg p with Some g => rbind (g ctx) f | None => Err end
  | OUnknown => match p_arg p with Some g => rbind (g ctx) (fun _ => Err) | None => Err end
  | OPlain => match p_arg p with Some g => rbind (g ctx) (fun v => Val (JMap [(op, v)])) | None => Err end
  end.
Fixpoint eval (e : expr) : clo :=
  match e with
  | Expr op arg l =>
      eval_node op
        (Parts
           (match arg with Some a => Some (eval a) | None => None end)
           (match arg with Some a => Some (exp_list eval a) | None => None end)
           (match arg with Some a => Some (exp_list (fun p => exp_list eval p) a) | None => None end)
           (match l with LVal v => v | _ => JNull end)
           (match l with LList es => Some (map eval es) | _ => None end)
           (match l with LMap m => Some (map (fun kv => (kv.1, eval kv.2)) m) | _ => None end))
  end.

(** *** JSON *)
(** JSON text is represented by a JSON value: a number that fits an int64 and is
    written without fraction and exponent is a [JInt], any other one the [JFloat]
    nearest to it.  Numbers too large for a float64 and strings that are not UTF-8
    are not modelled. *)
(** The number that encoding/json writes for a float64. *)
Definition float_token (f : spec_float) : option json :=
  match fmt_float f with
  | Some t => Some (match parse_int t with Some n => JInt n | None => JFloat f end)
  | None => None
  end.
(** marshaler.go:73-168 MarshalJSON.  A nil argument becomes null.  @any writes its
    literal, which is nil after decoding; a map of expressions there is not
    modelled. *)
Fixpoint marshal (e : expr) : option json :=
  match e with
  | Expr op arg l =>
      let wrapped := match arg with
                     | Some a => j ← marshal a; Some (JMap [(op, j)])
                     | None => Some (JMap [(op, JNull)])
                     end in
      let es (l : list expr) := js ← (fix go l := match l with [] => Some [] | e :: l => j ← marshal e; js ← go l; Some (j :: js) end) l; Some (JList js) in
      let scalar {A} (f : json -> option A) (k : A -> option json) :=
        match arg with
        | Some _ => wrapped
        | None => v ← (match l with LVal v => f v | _ => None end); k v
        end in
      match op with
      | EmptyString => None
      | _ =>
          if decide (op = "@any") then match l with LVal v => Some v | LList l => es l | LMap _ => None end
          else if decide (op = "@bool") then scalar as_bool (fun b => Some (JBool b))
          else if decide (op = "@int") then scalar as_int (fun n => Some (JInt n))
          else if decide (op = "@float") then scalar as_float float_token
          else if decide (op = "@string") then scalar as_string (fun s => Some (JStr s))
          else if decide (op = "@list") then
            match arg with Some a => marshal a | None => match l with LList l => es l | _ => None end end
          else if decide (op = "@dict") then
            match arg with
            | Some a => marshal a
            | None =>
                match l with
                | LMap m => js ← (fix go m := match m with [] => Some [] | (k, e) :: m => j ← marshal e; js ← go m; Some ((k, j) :: js) end) m; Some (JMap js)
                | _ => None
                end
            end
          else if at_sign op then wrapped else None
      end
  end.
(** marshaler.go:10-69 UnmarshalJSON.  null is accepted by the first attempt, which
    leaves the boolean false.  [op[0]] of an empty key panics. *)
Definition scalar_expr (op : string) (v : json) : expr := Expr op None (LVal v).
Fixpoint unmarshal (j : json) : res expr :=
  match j with
  | JNull => Val (scalar_expr "@bool" (JBool false))
  | JBool b => Val (scalar_expr "@bool" (JBool b))
  | JInt n => Val (scalar_expr "@int" (JInt n))
  | JFloat f => Val (scalar_expr "@float" (JFloat f))
  | JStr s => match s with EmptyString => Err | _ => Val (scalar_expr "@string" (JStr s)) end
  | JList l =>
      rbind ((fix go l := match l with [] => Val [] | j :: l => rbind (unmarshal j) (fun e => rbind (go l) (fun es => Val (e :: es))) end) l)
        (fun es => Val (Expr "@list" None (LList es)))
  | JMap m =>
      rbind ((fix go (m : jobj) := match m with [] => Val [] | (k, j) :: m => rbind (unmarshal j) (fun e => rbind (go m) (fun es => Val ((k, e) :: es))) end) m)
        (fun es =>
           match es with
           | [(EmptyString, _)] => Panic
           | [(k, e)] => if at_sign k then Val (Expr k (Some e) (LVal JNull)) else Val (Expr "@dict" None (LMap es))
           | _ => Val (Expr "@dict" None (LMap es))
           end)
  end.
(** marshaler.go:183-199 DeepCopyInto: through JSON; errors leave a shallow copy,
    which is the same value here. *)
Definition deep_copy (e : expr) : res expr :=
  match marshal e with
  | None => Val e
  | Some j => match unmarshal j with Val e' => Val e' | Err => Val e | Panic => Panic end
  end.
End eval.
