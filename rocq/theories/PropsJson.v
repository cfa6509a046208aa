(** Property C25 (document identity) and the sorting part of C10. *)
From Verif Require Import ZSetModel OpsModel JsonModel SortModel JsonSpec SortSpec JsonProofs JsonIdent SortProofs TestJson.

(** ** C25 *)

(** The identity exists exactly for documents whose floats are all finite. *)
Theorem C25_identity_exists {FF : FloatFmt} : forall d : jobj,
  is_Some (key (Docs := json_docs) d) <-> jfinite (JMap d).
Proof. exact c25_defined. Qed.
Print Assumptions C25_identity_exists.

(** Two documents have the same identity exactly when they have the same
    structure, keys, strings, booleans and nulls and their numbers have the same
    decimal text.  [fmt_ok] says that floats are printed with number characters.
    Missing from the full statement: strings that are not valid UTF-8, and
    numbers compared by value; both are false, see below. *)
Theorem C25_identity_partial {FF : FloatFmt} : forall (d1 d2 : jobj) k1 k2,
  fmt_ok -> jutf8 (JMap d1) -> jutf8 (JMap d2) ->
  key (Docs := json_docs) d1 = Some k1 -> key (Docs := json_docs) d2 = Some k2 ->
  (k1 = k2 <-> jsame (JMap d1) (JMap d2)).
Proof. exact (fun d1 d2 k1 k2 H => c25_identity H d1 d2 k1 k2). Qed.
Print Assumptions C25_identity_partial.

(** Without floats, documents with the same identity are equal. *)
Theorem C25_no_floats {FF : FloatFmt} : forall (d1 d2 : jobj),
  fmt_ok -> jutf8 (JMap d1) -> jutf8 (JMap d2) -> jnofloat (JMap d1) -> jnofloat (JMap d2) ->
  key (Docs := json_docs) d1 = key (Docs := json_docs) d2 -> d1 = d2.
Proof. exact (fun d1 d2 H => c25_nofloat H d1 d2). Qed.
Print Assumptions C25_no_floats.

Definition ex_jdoc : jobj := [("a"%string, JList [JInt (-7); JStr "x<y"; JNull; JMap []]); ("b"%string, JBool true)].
Definition ex_jdoc2 : jobj := [("a"%string, JList [JInt (-7); JStr "x<y"; JNull; JMap []]); ("b"%string, JFloat f_15_5)].
Lemma ex_jdoc_ok : jutf8 (JMap ex_jdoc) /\ jutf8 (JMap ex_jdoc2) /\ jnofloat (JMap ex_jdoc).
Proof. split_and!; repeat (first [apply List.Forall_cons | apply List.Forall_nil | split | constructor]); reflexivity. Qed.
Example ex_C25 : fmt_ok /\ jutf8 (JMap ex_jdoc) /\ jutf8 (JMap ex_jdoc2) /\ jnofloat (JMap ex_jdoc)
  /\ key (Docs := json_docs) ex_jdoc = Some "{""a"":[-7,""x\u003cy"",null,{}],""b"":true}"%string
  /\ key (Docs := json_docs) ex_jdoc2 = Some "{""a"":[-7,""x\u003cy"",null,{}],""b"":15.5}"%string.
Proof.
  split; [exact test_fmt_ok|]. split; [apply ex_jdoc_ok|]. split; [apply ex_jdoc_ok|]. split; [apply ex_jdoc_ok|].
  split; vm_compute; reflexivity.
Qed.

(** FALSE: an integer and a float with the same text share the identity.  Go
    prints the float 1.0 as 1, so {a: 1} and {a: 1.0} are the same document for
    a Z-set although object.DeepEqual tells them apart. *)
Theorem C25_int_float_refuted {FF : FloatFmt} : forall f n,
  fmt_float f = Some (enc_int n) ->
  exists d1 d2 : jobj, d1 <> d2 /\ is_Some (key (Docs := json_docs) d1)
    /\ key (Docs := json_docs) d1 = key (Docs := json_docs) d2.
Proof.
  exact c25_int_float.
Qed.
Print Assumptions C25_int_float_refuted.
Example ex_C25_int_float : fmt_float (FloatFmt := test_fmt) f_one = Some (enc_int 1).
Proof. vm_compute. reflexivity. Qed.

(** FALSE for strings that are not valid UTF-8: all invalid bytes are printed
    alike. *)
Theorem C25_utf8_refuted {FF : FloatFmt} : exists d1 d2 : jobj,
  d1 <> d2 /\ is_Some (key (Docs := json_docs) d1) /\ key (Docs := json_docs) d1 = key (Docs := json_docs) d2.
Proof.
  exists [("a"%string, JStr (str1 (ch 255)))], [("a"%string, JStr (str1 (ch 254)))].
  split; [vm_compute; discriminate|]. split; [eexists; reflexivity|]. vm_compute. reflexivity.
Qed.
Print Assumptions C25_utf8_refuted.

(** ** C10: sorting the gathered values *)

(** Lists of integers and lists of strings are brought into one order,
    whatever the initial order and whatever the sorting routine, as long as it
    sorts. *)
Theorem C10_sort_homogeneous {FF : FloatFmt} : forall s1 s2 l l',
  is_sort s1 -> is_sort s2 -> homogeneous l -> Permutation l l' -> s1 l = s2 l'.
Proof. exact sort_homogeneous. Qed.
Print Assumptions C10_sort_homogeneous.
(** The routine Go uses for short lists is such a routine. *)
Theorem C10_sort_small {FF : FloatFmt} : is_sort sort_small.
Proof. exact sort_small_is_sort. Qed.
Print Assumptions C10_sort_small.
Example ex_C10_sort : homogeneous [JInt 10; JInt 2] /\ sort_small [JInt 10; JInt 2] = [JInt 2; JInt 10].
Proof.
  split; [|vm_compute; reflexivity].
  left. intros v. rewrite !elem_of_cons, elem_of_nil. intros [->|[->|[]]]; eauto.
Qed.

(** FALSE for integers mixed with floats: the comparison is not transitive
    (2 < 10 as integers, "10" < "15.5" < "2" as text), so the order of the
    result depends on the order of the input. *)
Theorem C10_sort_mixed_refuted : exists l l', Permutation l l' /\ sort_small l <> sort_small l'.
Proof.
  exists [JInt 10; JFloat f_15_5; JInt 2], [JInt 2; JInt 10; JFloat f_15_5].
  split; [|vm_compute; discriminate].
  change [JInt 2; JInt 10; JFloat f_15_5] with ([JInt 2] ++ [JInt 10; JFloat f_15_5]).
  change [JInt 10; JFloat f_15_5; JInt 2] with ([JInt 10; JFloat f_15_5] ++ [JInt 2]).
  apply Permutation_app_comm.
Qed.
Print Assumptions C10_sort_mixed_refuted.

(** Gather documents {id, v} by id, collecting v; the result is
    {id, v: list}. *)
Definition gx_id : extractor (DD := json_docs) := fun d => Some (mget d "id").
Definition gx_v : extractor (DD := json_docs) := fun d => Some (mget d "v").
Definition g_agg : aggregator (DD := json_docs) := fun _ k vs => Some [("id"%string, k); ("v"%string, JList vs)].
Definition g_doc (v : json) : jobj := [("id"%string, JInt 0); ("v"%string, v)].
Definition g_z : zset (DD := json_docs) :=
  default zempty (add_all zempty [(g_doc (JInt 10), 1); (g_doc (JFloat f_15_5), 1); (g_doc (JInt 2), 1)]).
Definition jrev : order (DD := json_docs) := fun V _ m => rev (map_to_list m).
(** FALSE: the result of a gather over such values depends on the iteration
    order, even though the aggregator does not look at the representative. *)
Theorem C10_gather_mixed_refuted :
  order_ok jrev /\ order_ok (std_order (DD := json_docs))
  /\ (d ← (y ← gather jrev sort_small gx_id gx_v g_agg g_z; zunique_documents std_order y) ; Some (map (fun x => mget x "v") d))
     <> (d ← (y ← gather std_order sort_small gx_id gx_v g_agg g_z; zunique_documents std_order y) ; Some (map (fun x => mget x "v") d)).
Proof.
  split; [intros V p m; unfold jrev; symmetry; apply Permutation_rev|].
  split; [intros V p m; reflexivity|]. vm_compute. discriminate.
Qed.
Print Assumptions C10_gather_mixed_refuted.
