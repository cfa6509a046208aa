(** Documents on which identity is plain equality: strings are valid UTF-8,
    floats are finite, not zero and do not print like an integer.  Theorems
    about whole pipelines are stated for such documents; what goes wrong
    outside is in C25. *)
From Verif Require Import JsonModel JsonSpec.

Section clean.
Context {FF : FloatFmt}.

Fixpoint has_point (s : string) : bool :=
  match s with
  | EmptyString => false
  | String c s => byte_in 46 46 c || byte_in 101 101 c || has_point s
  end.
Definition float_clean (f : spec_float) : bool :=
  match f with
  | S754_finite _ _ _ => match fmt_float f with Some s => has_point s | None => false end
  | _ => false
  end.
Fixpoint keys_sorted (m : jobj) : bool :=
  match m with
  | (j, _) :: ((k, _) :: _) as m' => match scmp j k with Lt => keys_sorted m' | _ => false end
  | _ => true
  end.
Fixpoint jclean (v : json) : bool :=
  match v with
  | JFloat f => float_clean f
  | JStr s => utf8_ok s
  | JList l => (fix go (l : list json) : bool := match l with [] => true | v :: l => jclean v && go l end) l
  | JMap m =>
      keys_sorted m
      && (fix go (m : jobj) : bool := match m with [] => true | (k, v) :: m => utf8_ok k && jclean v && go m end) m
  | _ => true
  end.
Definition clean (m : jobj) : bool := jclean (JMap m).
End clean.
