(** Surroundings for the examples on expressions: JSONPath with field names only. *)
From Coq Require Import Ascii.
From Verif Require Import ExprModel ExprSpec.
#[local] Open Scope Z_scope.
Fixpoint segs (cur s : string) : list string :=
  match s with
  | EmptyString => [cur]
  | String c s => if bool_decide (c = "."%char) then cur :: segs EmptyString s else segs (String.append cur (String c EmptyString)) s
  end.
Fixpoint walk (l : list string) (d : json) : list json :=
  match l with
  | [] => [d]
  | k :: l => match d with JMap m => match mget m k with Some v => walk l v | None => [] end | _ => [] end
  end.
Definition simple_get (q : string) (d : json) : option (list json) :=
  match segs EmptyString q with
  | r :: l => if bool_decide (r = "$"%string) then Some (walk l d) else None
  | [] => None
  end.
Definition simple_set (q : string) (v d : json) : option json :=
  match segs EmptyString q, d with
  | [_; k], JMap m => Some (JMap (mset m k v))
  | _, _ => None
  end.
(** All numbers print as integers if they are; only 1.0 is known to the formatter. *)
Definition one : spec_float := S754_finite false 4503599627370496 (-52).
Definition half : spec_float := S754_finite false 4503599627370496 (-53).
#[global] Instance go_fmt : FloatFmt := {| fmt_float f := if SFeqb f one then Some "1"%string else if SFeqb f half then Some "0.5"%string else None |}.
#[global] Instance simple_env : ExprEnv :=
  {| jp_get := simple_get; jp_set := simple_set; parse_float := fun _ => None; fmt_g := fun _ => "1"%string; valid_key := fun _ => true; valid_value := fun _ => true;
     md5_base36 := fun s => s; now := "2025-01-01T00:00:00Z"%string; intn := fun _ => 0; iterate := fun l => l |}.
Lemma simple_order : is_order (@iterate simple_env).
Proof. by intros l. Qed.
Definition doc : json :=
  JMap [("a"%string, JInt 1); ("l"%string, JList [JInt 1; JInt 5; JInt 3]); ("m"%string, JMap [("name"%string, JStr "x"); ("ns"%string, JStr "y")]); ("ref"%string, JStr "$.a"); ("t"%string, JStr "@now")].
Definition here : ectx := Ctx doc JNull.
(** $$ > 2 *)
Definition big : expr := opl "@gt" [strE "$$."; intE 2].
Lemma big_computes : computes big here [JInt 1; JInt 5; JInt 3] (fun x => JBool (match x with JInt n => 2 <? n | _ => false end)).
Proof. intros x H. repeat (apply elem_of_cons in H; destruct H as [->|H]; [vm_compute; reflexivity|]). by apply elem_of_nil in H. Qed.
