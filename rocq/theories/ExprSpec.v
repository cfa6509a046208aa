(** Specification vocabulary for the expression language. *)
From Verif Require Import ExprModel.
#[local] Open Scope Z_scope.

(** {"@op": [e1, e2, ...]} and {"@op": e}, as the decoder builds them *)
Definition opl (op : string) (es : list expr) : expr := Expr op (Some (Expr "@list" None (LList es))) (LVal JNull).
Definition op1 (op : string) (e : expr) : expr := Expr op (Some e) (LVal JNull).
Definition strE (s : string) : expr := Expr "@string" None (LVal (JStr s)).
Definition intE (n : Z) : expr := Expr "@int" None (LVal (JInt n)).
Definition boolE (b : bool) : expr := Expr "@bool" None (LVal (JBool b)).
Definition listE (es : list expr) : expr := Expr "@list" None (LList es).
Definition dictE (m : list (string * expr)) : expr := Expr "@dict" None (LMap m).

Section spec.
Context {FF : FloatFmt} {EE : ExprEnv}.
(** The expressions evaluate to the values. *)
Definition gives (e : expr) (ctx : ectx) (v : json) : Prop := eval e ctx = Val v.
Definition all_give (es : list expr) (ctx : ectx) (vs : list json) : Prop := Forall2 (fun e v => gives e ctx v) es vs.
(** Evaluation fails. *)
Definition fails {A} (r : res A) : Prop := r = Err \/ r = Panic.
(** With the element as its local subject, the expression gives the function's value. *)
Definition computes (e : expr) (ctx : ectx) (l : list json) (f : json -> json) : Prop :=
  forall x, x ∈ l -> gives e (Ctx (c_object ctx) x) (f x).
Definition not_list (v : json) : Prop := match v with JList _ => False | _ => True end.
(** Values on which Go's equality is equality: no NaN and no negative zero inside. *)
Inductive exact_value : json -> Prop :=
  | ev_null : exact_value JNull
  | ev_bool b : exact_value (JBool b)
  | ev_int n : exact_value (JInt n)
  | ev_float f : f <> S754_nan -> f <> S754_zero true -> exact_value (JFloat f)
  | ev_str s : exact_value (JStr s)
  | ev_list l : Forall exact_value l -> exact_value (JList l)
  | ev_map m : Forall (fun kv => exact_value kv.2) m -> exact_value (JMap m).

(** Every literal map inside the expression has distinct keys that are no paths. *)
Definition plain_key (k : string) : Prop := match k with String c _ => c <> dollar | EmptyString => True end.
Inductive plain : expr -> Prop :=
  Plain op arg l : (forall a, arg = Some a -> plain a) -> plain_lit l -> plain (Expr op arg l)
with plain_lit : lit -> Prop :=
  | plain_val v : plain_lit (LVal v)
  | plain_list es : Forall plain es -> plain_lit (LList es)
  | plain_map m : NoDup (map fst m) -> Forall (fun kv => plain_key kv.1 /\ plain kv.2) m -> plain_lit (LMap m).

(** Expressions that cannot make the program panic: operators have their arguments,
    @map has two, and @rnd and @range are not used. *)
Definition loop_ops : list string := ["@cond"; "@definedOr"; "@switch"; "@and"; "@or"; "@filter"; "@any"; "@none"; "@all"; "@map"]%string.
Inductive calm : expr -> Prop :=
  Calm op arg l : (op ∈ loop_ops -> arg <> None) -> op ∉ ["@rnd"; "@range"]%string ->
    (op = "@map"%string -> exists a e1 e2 es, arg = Some (Expr "@list" a (LList (e1 :: e2 :: es)))) ->
    (forall a, arg = Some a -> calm a) -> (forall es, l = LList es -> Forall calm es) -> (forall m, l = LMap m -> Forall (fun kv => calm kv.2) m) -> calm (Expr op arg l).
End spec.

(** The same surroundings with another order of iteration. *)
Definition with_order (EE : ExprEnv) (it : list string -> list string) : ExprEnv :=
  {| jp_get := @jp_get EE; jp_set := @jp_set EE; parse_float := @parse_float EE; fmt_g := @fmt_g EE; valid_key := @valid_key EE; valid_value := @valid_value EE;
     md5_base36 := @md5_base36 EE; now := @now EE; intn := @intn EE; iterate := it |}.
Definition is_order (it : list string -> list string) : Prop := forall l, Permutation (it l) l.

(** *** Expressions that survive the way through JSON *)
Section portable.
Context {FF : FloatFmt} {EE : ExprEnv}.
(** A map with one key must not look like an operator, nor make the decoder panic. *)
Definition map_ok {A} (m : list (string * A)) : Prop := match m with [(k, _)] => k <> EmptyString /\ at_sign k = false | _ => True end.
Inductive portable : expr -> Prop :=
  | pt_bool b : portable (Expr "@bool" None (LVal (JBool b)))
  | pt_int v n : as_int v = Some n -> portable (Expr "@int" None (LVal v))
  | pt_float v f t : as_float v = Some f -> fmt_float f = Some t -> parse_int t = None -> portable (Expr "@float" None (LVal v))
  | pt_string v s : as_string v = Some s -> s <> EmptyString -> portable (Expr "@string" None (LVal v))
  | pt_list es : Forall portable es -> portable (Expr "@list" None (LList es))
  | pt_dict m : Forall (fun kv => portable kv.2) m -> map_ok m -> portable (Expr "@dict" None (LMap m))
  | pt_op op a l : portable a -> at_sign op = true -> op ∉ ["@any"; "@list"; "@dict"]%string -> portable (Expr op (Some a) l)
  | pt_noop l : portable (Expr "@noop" None l).

(** JSON specifications that survive: no empty string, no operator @any, @list or
    @dict, no number whose text is that of an integer although it was not
    written as one, no map with the empty key only. *)
Inductive portable_json : json -> Prop :=
  | pj_null : portable_json JNull
  | pj_bool b : portable_json (JBool b)
  | pj_int n : portable_json (JInt n)
  | pj_float f t : fmt_float f = Some t -> parse_int t = None -> portable_json (JFloat f)
  | pj_str s : s <> EmptyString -> portable_json (JStr s)
  | pj_list l : Forall portable_json l -> portable_json (JList l)
  | pj_map m : Forall (fun kv => portable_json kv.2) m -> (forall v, m <> [(EmptyString, v)]) ->
      (forall v op, op ∈ ["@any"; "@list"; "@dict"]%string -> m <> [(op, v)]) -> portable_json (JMap m).
(** null is decoded as false. *)
Fixpoint null_false (j : json) : json :=
  match j with
  | JNull => JBool false
  | JList l => JList (map null_false l)
  | JMap m => JMap (map (fun kv => (kv.1, null_false kv.2)) m)
  | j => j
  end.
End portable.
