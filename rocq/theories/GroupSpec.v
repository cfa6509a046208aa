(** Specification vocabulary for view groups and Secrets. *)
From Verif Require Import JsonModel ObjModel.

(** A string without '.'. *)
Fixpoint no_dot (s : string) : Prop :=
  match s with EmptyString => True | String c s => c <> "."%char /\ no_dot s end.

(** The groups of an operator's views: its own, and one for each native
    group-version that is mapped into views. *)
Definition owns (operator g : string) : Prop :=
  g = operator +:+ ".view.dcontroller.io" \/ exists group version, g = group +:+ "." +:+ version +:+ "." +:+ operator +:+ ".view.dcontroller.io".

(** RFC 4648 base64 of a byte string. *)
Definition b64_char (n : N) : ascii :=
  if (n <? 26)%N then ascii_of_N (n + 65)
  else if (n <? 52)%N then ascii_of_N (n + 71)
  else if (n <? 62)%N then ascii_of_N (n - 4)
  else if (n =? 62)%N then "+"%char else "/"%char.
Fixpoint b64_encode (s : string) : string :=
  match s with
  | EmptyString => EmptyString
  | String x EmptyString =>
      let n := N_of_ascii x in
      String (b64_char (n / 4)) (String (b64_char ((n mod 4) * 16)) "==")
  | String x (String y EmptyString) =>
      let n := N_of_ascii x in let m := N_of_ascii y in
      String (b64_char (n / 4)) (String (b64_char ((n mod 4) * 16 + m / 16)) (String (b64_char ((m mod 16) * 4)) "="))
  | String x (String y (String z s)) =>
      let n := N_of_ascii x in let m := N_of_ascii y in let k := N_of_ascii z in
      String (b64_char (n / 4)) (String (b64_char ((n mod 4) * 16 + m / 16))
        (String (b64_char ((m mod 16) * 4 + k / 64)) (String (b64_char (k mod 64)) (b64_encode s))))
  end.

(** The characters of base64 with padding, and line ends. *)
Definition base64_char (c : ascii) : Prop :=
  let n := N_of_ascii c in
  (65 <= n <= 90 \/ 97 <= n <= 122 \/ 48 <= n <= 57 \/ n = 43 \/ n = 47 \/ n = 61 \/ n = 13 \/ n = 10)%N.
