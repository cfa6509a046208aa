(** JSON values as held in Go [any], the canonical JSON text used as document
    identity (pkg/dbsp/document.go), and the accessors of
    unstructured.Unstructured that the repository uses.

    Simplifications, valid for the whole file:
    - A value is one of nil, bool, int64, float64, string, []any,
      map[string]any.  Other Go types (int, structs) do not occur in decoded
      documents and are not modelled.
    - A Go map is an association list sorted by key, without duplicates
      ([jwf]), so equality of maps is equality of lists.
    - A Go string is a list of bytes.
    - float64 is [spec_float]; the text of a finite float (strconv.AppendFloat,
      shortest form) is a parameter [fmt_float]. *)
From Coq Require Export SpecFloat Ascii.
From stdpp Require Export strings pretty.
From Verif Require Export ZSetModel.

Inductive json : Type :=
  | JNull
  | JBool (b : bool)
  | JInt (n : Z)
  | JFloat (f : spec_float)
  | JStr (s : string)
  | JList (l : list json)
  | JMap (m : list (string * json)).
(** map[string]any *)
Notation jobj := (list (string * json)).

(** Byte-wise comparison of Go strings. *)
Fixpoint scmp (a b : string) : comparison :=
  match a, b with
  | EmptyString, EmptyString => Eq
  | EmptyString, String _ _ => Lt
  | String _ _, EmptyString => Gt
  | String x a, String y b =>
      match N.compare (N_of_ascii x) (N_of_ascii y) with
      | Eq => scmp a b
      | c => c
      end
  end.
Definition slt (a b : string) : Prop := scmp a b = Lt.

(** Well-formed maps: keys strictly increasing. *)
Definition ksorted (m : jobj) : Prop := StronglySorted slt (map fst m).
Inductive jwf : json -> Prop :=
  | jwf_null : jwf JNull
  | jwf_bool b : jwf (JBool b)
  | jwf_int n : jwf (JInt n)
  | jwf_float f : jwf (JFloat f)
  | jwf_str s : jwf (JStr s)
  | jwf_list l : Forall jwf l -> jwf (JList l)
  | jwf_map m : ksorted m -> Forall (fun kv => jwf kv.2) m -> jwf (JMap m).
Definition owf (m : jobj) : Prop := jwf (JMap m).

(** Go map operations: m[k], m[k] = v, delete(m, k). *)
Fixpoint mget (m : jobj) (k : string) : option json :=
  match m with
  | [] => None
  | (k', v) :: m => if decide (k = k') then Some v else mget m k
  end.
Fixpoint mset (m : jobj) (k : string) (v : json) : jobj :=
  match m with
  | [] => [(k, v)]
  | (k', v') :: m' =>
      match scmp k k' with
      | Lt => (k, v) :: m
      | Eq => (k, v) :: m'
      | Gt => (k', v') :: mset m' k v
      end
  end.
Fixpoint mdel (m : jobj) (k : string) : jobj :=
  match m with
  | [] => []
  | (k', v') :: m' => if decide (k = k') then m' else (k', v') :: mdel m' k
  end.

(** *** JSON text *)

(** The text of a finite float64 as encoding/json prints it; [None] for NaN and
    infinities (UnsupportedValueError). *)
Class FloatFmt := { fmt_float : spec_float -> option string }.

Definition ch (n : N) : ascii := ascii_of_N n.
Definition byte_in (lo hi : N) (c : ascii) : bool := (N.leb lo (N_of_ascii c)) && (N.leb (N_of_ascii c) hi).
Definition is_cont : ascii -> bool := byte_in 128 191.
(** utf8.DecodeRune: which byte sequences are one well-formed multi-byte rune. *)
Definition rune2 (a b : ascii) : bool := byte_in 194 223 a && is_cont b.
Definition rune3 (a b c : ascii) : bool :=
  ((byte_in 224 224 a && byte_in 160 191 b) || (byte_in 225 236 a && is_cont b)
   || (byte_in 237 237 a && byte_in 128 159 b) || (byte_in 238 239 a && is_cont b)) && is_cont c.
Definition rune4 (a b c d : ascii) : bool :=
  ((byte_in 240 240 a && byte_in 144 191 b) || (byte_in 241 243 a && is_cont b)
   || (byte_in 244 244 a && byte_in 128 143 b)) && is_cont c && is_cont d.

Definition hex_digit (n : N) : ascii := if (n <? 10)%N then ch (48 + n) else ch (87 + n).
Definition str1 (a : ascii) : string := String a EmptyString.
(** encoding/json appendString with escapeHTML, one ASCII byte. *)
Definition enc_ascii (c : ascii) : string :=
  let n := N_of_ascii c in
  if (n =? 92)%N || (n =? 34)%N then String (ch 92) (str1 c)
  else if (n =? 8)%N then String (ch 92) "b"
  else if (n =? 12)%N then String (ch 92) "f"
  else if (n =? 10)%N then String (ch 92) "n"
  else if (n =? 13)%N then String (ch 92) "r"
  else if (n =? 9)%N then String (ch 92) "t"
  else if (n <? 32)%N || (n =? 60)%N || (n =? 62)%N || (n =? 38)%N
  then String (ch 92) (String "u" (String "0" (String "0" (String (hex_digit (n / 16)) (str1 (hex_digit (n mod 16)))))))
  else str1 c.
(** The replacement for an invalid byte, and U+2028/U+2029. *)
Definition bad_rune : string := String (ch 92) "ufffd".
Definition is_ls (a b c : ascii) : bool := byte_in 226 226 a && byte_in 128 128 b && byte_in 168 169 c.
Definition enc_ls (c : ascii) : string :=
  String (ch 92) (String "u" (String "2" (String "0" (String "2" (str1 (if byte_in 168 168 c then "8"%char else "9"%char)))))).
(** The body of a JSON string literal. *)
Fixpoint enc_body (s : string) : string :=
  match s with
  | EmptyString => EmptyString
  | String a s1 =>
      if (N_of_ascii a <? 128)%N then enc_ascii a +:+ enc_body s1
      else
        match s1 with
        | String b s2 =>
            if rune2 a b then String a (String b (enc_body s2))
            else
              match s2 with
              | String c s3 =>
                  if rune3 a b c then
                    (if is_ls a b c then enc_ls c else String a (String b (str1 c))) +:+ enc_body s3
                  else
                    match s3 with
                    | String d s4 =>
                        if rune4 a b c d then String a (String b (String c (String d (enc_body s4))))
                        else bad_rune +:+ enc_body s1
                    | EmptyString => bad_rune +:+ enc_body s1
                    end
              | EmptyString => bad_rune +:+ enc_body s1
              end
        | EmptyString => bad_rune +:+ enc_body s1
        end
  end.
(** Is the string valid UTF-8? *)
Fixpoint utf8_ok (s : string) : bool :=
  match s with
  | EmptyString => true
  | String a s1 =>
      if (N_of_ascii a <? 128)%N then utf8_ok s1
      else
        match s1 with
        | String b s2 =>
            if rune2 a b then utf8_ok s2
            else
              match s2 with
              | String c s3 =>
                  if rune3 a b c then utf8_ok s3
                  else
                    match s3 with
                    | String d s4 => if rune4 a b c d then utf8_ok s4 else false
                    | EmptyString => false
                    end
              | EmptyString => false
              end
        | EmptyString => false
        end
  end.
Definition quote : string := str1 (ch 34).
Definition enc_str (s : string) : string := quote +:+ enc_body s +:+ quote.

(** strconv.AppendInt, base 10. *)
Definition enc_int (n : Z) : string := pretty n.

(** Comma-separated list. *)
Fixpoint join_comma (l : list string) : string :=
  match l with
  | [] => EmptyString
  | [x] => x
  | x :: l => x +:+ "," +:+ join_comma l
  end.

Section enc.
Context {FF : FloatFmt}.

(** json.Marshal on canonical values: map keys in increasing order.
    [None] = marshalling error.  pkg/dbsp/document.go:31-65 toCanonicalForm
    copies the value and does not change it. *)
Fixpoint enc (v : json) : option string :=
  match v with
  | JNull => Some "null"
  | JBool true => Some "true"
  | JBool false => Some "false"
  | JInt n => Some (enc_int n)
  | JFloat f => fmt_float f
  | JStr s => Some (enc_str s)
  | JList l =>
      ss ← (fix go (l : list json) : option (list string) :=
              match l with
              | [] => Some []
              | v :: l => s ← enc v; ss ← go l; Some (s :: ss)
              end) l;
      Some ("[" +:+ join_comma ss +:+ "]")
  | JMap m =>
      ss ← (fix go (m : jobj) : option (list string) :=
              match m with
              | [] => Some []
              | (k, v) :: m => s ← enc v; ss ← go m; Some ((enc_str k +:+ ":" +:+ s) :: ss)
              end) m;
      Some ("{" +:+ join_comma ss +:+ "}")
  end.

(** pkg/dbsp/document.go:14-27 computeJSONKey and 116-123 computeJSONAny.  [P]
    is a device of the model: documents outside [P] are refused as if they could
    not be marshalled.  The code is the case where [P] accepts everything. *)
Definition json_docs_on (P : jobj -> bool) : Docs := {|
  doc := jobj;
  ident := string;
  ident_eq := _;
  ident_cnt := _;
  key := fun m => if P m then enc (JMap m) else None;
  val := json;
  vjson := enc
|}.
#[global] Instance json_docs : Docs | 100 := json_docs_on (fun _ => true).

End enc.

(** *** Accessors of unstructured.Unstructured (apimachinery, not part of the
    repository; behaviour recalled) *)

(** NestedFieldNoCopy: [None] if missing or an intermediate value is not a map. *)
Fixpoint nested_get (m : jobj) (path : list string) : option json :=
  match path with
  | [] => Some (JMap m)
  | [k] => mget m k
  | k :: path =>
      match mget m k with
      | Some (JMap m') => nested_get m' path
      | _ => None
      end
  end.
(** SetNestedField: missing intermediate maps are created; [None] if an
    intermediate value is present and not a map. *)
Fixpoint nested_set (m : jobj) (path : list string) (v : json) : option jobj :=
  match path with
  | [] => None
  | [k] => Some (mset m k v)
  | k :: path =>
      match mget m k with
      | Some (JMap m') => m'' ← nested_set m' path v; Some (mset m k (JMap m''))
      | Some _ => None
      | None => m'' ← nested_set [] path v; Some (mset m k (JMap m''))
      end
  end.
(** RemoveNestedField. *)
Fixpoint nested_del (m : jobj) (path : list string) : jobj :=
  match path with
  | [] => m
  | [k] => mdel m k
  | k :: path =>
      match mget m k with
      | Some (JMap m') => mset m k (JMap (nested_del m' path))
      | _ => m
      end
  end.
(** getNestedString: "" unless a string is found. *)
Definition nested_str (m : jobj) (path : list string) : string :=
  match nested_get m path with Some (JStr s) => s | _ => EmptyString end.
(** setNestedField of Unstructured ignores the error. *)
Definition nested_set' (m : jobj) (path : list string) (v : json) : jobj := default m (nested_set m path v).

Definition get_name (m : jobj) : string := nested_str m ["metadata"; "name"].
Definition get_namespace (m : jobj) : string := nested_str m ["metadata"; "namespace"].
Definition get_uid (m : jobj) : string := nested_str m ["metadata"; "uid"].
Definition get_kind (m : jobj) : string := nested_str m ["kind"].
Definition get_api_version (m : jobj) : string := nested_str m ["apiVersion"].
(** SetName and SetNamespace remove the field for the empty string. *)
Definition set_name (m : jobj) (s : string) : jobj :=
  if decide (s = EmptyString) then nested_del m ["metadata"; "name"] else nested_set' m ["metadata"; "name"] (JStr s).
Definition set_namespace (m : jobj) (s : string) : jobj :=
  if decide (s = EmptyString) then nested_del m ["metadata"; "namespace"] else nested_set' m ["metadata"; "namespace"] (JStr s).
Definition set_kind (m : jobj) (s : string) : jobj := mset m "kind" (JStr s).
Definition set_api_version (m : jobj) (s : string) : jobj := mset m "apiVersion" (JStr s).

(** schema.GroupVersionKind. *)
Record gvk := GVK { gvk_group : string; gvk_version : string; gvk_kind : string }.
#[global] Instance gvk_eq : EqDecision gvk.
Proof. solve_decision. Defined.

(** Split at the first '/'. *)
Fixpoint split_slash (s : string) : option (string * string) :=
  match s with
  | EmptyString => None
  | String c s' =>
      if decide (c = "/"%char) then Some (EmptyString, s')
      else '(a, b) ← split_slash s'; Some (String c a, b)
  end.
Definition has_slash (s : string) : bool := match split_slash s with Some _ => true | None => false end.
(** schema.ParseGroupVersion; [None] = error (two slashes). *)
Definition parse_gv (s : string) : option (string * string) :=
  if decide (s = EmptyString \/ s = "/"%string) then Some (EmptyString, EmptyString) else
  match split_slash s with
  | None => Some (EmptyString, s)
  | Some (a, b) => if has_slash b then None else Some (a, b)
  end.
(** GroupVersion.String. *)
Definition gv_string (g v : string) : string :=
  if decide (g = EmptyString) then v else g +:+ "/" +:+ v.
(** Unstructured.GroupVersionKind and SetGroupVersionKind. *)
Definition get_gvk (m : jobj) : gvk :=
  match parse_gv (get_api_version m) with
  | None => GVK "" "" ""
  | Some (g, v) => GVK g v (get_kind m)
  end.
Definition set_gvk (m : jobj) (x : gvk) : jobj :=
  set_kind (set_api_version m (gv_string (gvk_group x) (gvk_version x))) (gvk_kind x).
