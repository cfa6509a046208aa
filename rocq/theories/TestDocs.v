(** A small concrete document type, used only by the examples that show that
    the hypotheses of theorems are met.  [d_rep] is invisible to the identity
    (as the int/float distinction is in Go), and a negative [d_id] makes the
    JSON encoder fail (as a NaN does in Go). *)
From Verif Require Import ZSetModel.

Record tdoc := TDoc { d_id : Z; d_val : Z; d_rep : bool }.
#[global] Instance test_docs : Docs := {|
  doc := tdoc;
  ident := Z * Z;
  ident_eq := _;
  ident_cnt := _;
  key := fun d => if d_id d <? 0 then None else Some (d_id d, d_val d);
  val := Z;
  vjson := fun v => if v <? 0 then None else Some (v, 0)
|}.

(** Iterate the maps backwards. *)
Definition rev_order : order := fun V _ m => rev (map_to_list m).
