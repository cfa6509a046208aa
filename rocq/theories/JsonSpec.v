(** Specification for JSON identity: when are two JSON values "the same JSON
    value"?  Independent of the encoder, except that numbers are compared by
    their decimal text. *)
From Verif Require Import JsonModel.

Section spec.
Context {FF : FloatFmt}.

(** The decimal text of a number. *)
Definition num_text (v : json) : option string :=
  match v with
  | JInt n => Some (enc_int n)
  | JFloat f => fmt_float f
  | _ => None
  end.

(** Same structure, same keys, same strings, same numbers (by text). *)
Inductive jsame : json -> json -> Prop :=
  | same_null : jsame JNull JNull
  | same_bool b : jsame (JBool b) (JBool b)
  | same_num v w t : num_text v = Some t -> num_text w = Some t -> jsame v w
  | same_str s : jsame (JStr s) (JStr s)
  | same_list l1 l2 : Forall2 jsame l1 l2 -> jsame (JList l1) (JList l2)
  | same_map m1 m2 : Forall2 (fun a b => a.1 = b.1 /\ jsame a.2 b.2) m1 m2 -> jsame (JMap m1) (JMap m2).

(** All strings and keys are valid UTF-8. *)
Inductive jutf8 : json -> Prop :=
  | u_null : jutf8 JNull
  | u_bool b : jutf8 (JBool b)
  | u_int n : jutf8 (JInt n)
  | u_float f : jutf8 (JFloat f)
  | u_str s : utf8_ok s = true -> jutf8 (JStr s)
  | u_list l : Forall jutf8 l -> jutf8 (JList l)
  | u_map m : Forall (fun kv => utf8_ok kv.1 = true /\ jutf8 kv.2) m -> jutf8 (JMap m).

(** All floats can be printed, i.e. are finite. *)
Inductive jfinite : json -> Prop :=
  | fin_null : jfinite JNull
  | fin_bool b : jfinite (JBool b)
  | fin_int n : jfinite (JInt n)
  | fin_float f : is_Some (fmt_float f) -> jfinite (JFloat f)
  | fin_str s : jfinite (JStr s)
  | fin_list l : Forall jfinite l -> jfinite (JList l)
  | fin_map m : Forall (fun kv => jfinite kv.2) m -> jfinite (JMap m).

(** What is assumed of strconv: numbers are printed with the characters
    0-9 + - . e E. *)
Definition num_char (c : ascii) : bool :=
  byte_in 48 57 c || byte_in 43 43 c || byte_in 45 46 c || byte_in 101 101 c || byte_in 69 69 c.
Fixpoint all_num (s : string) : bool :=
  match s with EmptyString => true | String c s => num_char c && all_num s end.
Definition fmt_ok : Prop := forall f s, fmt_float f = Some s -> s <> EmptyString /\ all_num s = true.
(** strconv's round-trip guarantee. *)
Definition fmt_inj : Prop := forall f g s, fmt_float f = Some s -> fmt_float g = Some s -> f = g.
(** No float at all inside. *)
Inductive jnofloat : json -> Prop :=
  | nf_null : jnofloat JNull
  | nf_bool b : jnofloat (JBool b)
  | nf_int n : jnofloat (JInt n)
  | nf_str s : jnofloat (JStr s)
  | nf_list l : Forall jnofloat l -> jnofloat (JList l)
  | nf_map m : Forall (fun kv => jnofloat kv.2) m -> jnofloat (JMap m).
End spec.
