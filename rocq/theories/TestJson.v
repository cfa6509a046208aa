(** A concrete float formatter for the examples: the exact decimal expansion
    without trailing zeros.  It agrees with Go's shortest form on short
    fractions such as 1, 0.5 and 15.5. *)
From Verif Require Import JsonModel JsonSpec JsonProofs.

Fixpoint frac_digits (k : nat) (r : N) : string :=
  match k with
  | O => EmptyString
  | S k =>
      if (r =? 0)%N then EmptyString
      else let p := (10 ^ N.of_nat k)%N in String (pretty_N_char (r / p)) (frac_digits k (r mod p))
  end.
Definition exact_dec (m : positive) (e : Z) : string :=
  let k := Z.to_N (- e) in
  let num := (N.pos m * 2 ^ Z.to_N e * 5 ^ k)%N in
  let p := (10 ^ k)%N in
  let ip := pretty (num / p)%N in
  if (num mod p =? 0)%N then ip else ip +:+ "." +:+ frac_digits (N.to_nat k) (num mod p)%N.
Definition exact_fmt (f : spec_float) : option string :=
  match f with
  | S754_zero s => Some (if s then "-0" else "0")
  | S754_finite s m e => Some ((if s then "-" else "") +:+ exact_dec m e)
  | _ => None
  end.
#[global] Instance test_fmt : FloatFmt := {| fmt_float := exact_fmt |}.

(** float64 values. *)
Definition f_one : spec_float := S754_finite false 4503599627370496 (-52).
Definition f_15_5 : spec_float := S754_finite false 8725724278030336 (-49).

Lemma all_num_app a b : all_num (a +:+ b) = all_num a && all_num b.
Proof.
  induction a as [|c a IH]; [done|]. change (String c a +:+ b) with (String c (a +:+ b)).
  cbn [all_num]. by rewrite IH, andb_assoc.
Qed.
Lemma frac_num k r : all_num (frac_digits k r) = true.
Proof.
  revert r. induction k as [|k IH]; intros r; [done|]. cbn [frac_digits]. destruct (r =? 0)%N; [done|].
  cbn [all_num]. rewrite IH, andb_true_r. generalize (r / 10 ^ N.of_nat k)%N. intros n.
  unfold pretty_N_char. repeat (case_match; try done).
Qed.
Lemma test_fmt_ok : fmt_ok.
Proof.
  intros f s. destruct f as [z|z| |z m e]; simpl; intros E; try discriminate; injection E as <-.
  - destruct z; done.
  - assert (H : all_num (exact_dec m e) = true /\ exact_dec m e <> EmptyString).
    { unfold exact_dec. set (num := (N.pos m * 2 ^ Z.to_N e * 5 ^ Z.to_N (- e))%N).
      destruct (pretty_N_num (num / 10 ^ Z.to_N (- e))) as [H1 H2].
      destruct (num mod 10 ^ Z.to_N (- e) =? 0)%N; [done|]. rewrite all_num_app, H1, all_num_app, frac_num.
      split; [done|]. by destruct (pretty (num / 10 ^ Z.to_N (- e))%N). }
    rewrite all_num_app. destruct H as [H1 H2]. rewrite H1. destruct z; done.
Qed.
