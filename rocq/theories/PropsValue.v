(** Properties C26 and C27: patching and merging JSON values. *)
From Verif Require Import JsonModel ObjModel ValueModel JsonSpec ValueSpec.
From Verif Require Import JsonProofs ValueProofs MergeProofs.

(** ** C26 *)

(** Patching an object never fails and gives a well-formed object. *)
Theorem C26_total : forall obj m, owf obj -> owf m -> exists r, patch_object obj m = Some r /\ owf r /\ patch (JMap obj) (JMap m) = JMap r.
Proof.
  intros obj m Ho Hm. destruct (patch_object_total obj m) as [r E]. exists r. unfold patch_object in E.
  pose proof (patch_wf (JMap m) (JMap obj) Ho Hm) as W. unfold patch_object. destruct (patch (JMap obj) (JMap m)); try done. injection E as ->. done.
Qed.
Print Assumptions C26_total.

(** Twice is once. A value decoded from JSON holds no NaN. *)
Theorem C26_idempotent : forall o m, jwf o -> jwf m -> nonan m -> patch (patch o m) m = patch o m.
Proof. exact (fun o m => patch_idem m o). Qed.
Print Assumptions C26_idempotent.

(** Every string, number and boolean of the patch is in the result, at its
    place. *)
Theorem C26_leaves : forall o m ps v, jwf o -> jwf m -> leaf v -> at_path m ps = Some v -> at_path (patch o m) ps = Some v.
Proof. exact (fun o m ps v => patch_leaf ps o m v). Qed.
Print Assumptions C26_leaves.

(** What the patch does not touch is as before: present with the same value, or
    absent. *)
Theorem C26_local : forall o m ps, jwf o -> jwf m -> untouched m ps -> at_path (patch o m) ps = at_path o ps.
Proof. exact (fun o m ps => patch_local ps o m). Qed.
Print Assumptions C26_local.

(** The empty patch changes nothing. *)
Theorem C26_empty : forall obj, patch_object obj [] = Some obj.
Proof. exact patch_empty. Qed.
Print Assumptions C26_empty.

(** A null entry of the patch deletes the key from a map that the object has.
    Missing: maps that the object does not have; see below. *)
Theorem C26_nulls_partial : forall o m ps k mo, jwf o -> jwf m -> nonull o ->
  at_path o ps = Some (JMap mo) -> at_path m (ps ++ [Key k]) = Some JNull -> at_path (patch o m) (ps ++ [Key k]) = None.
Proof. exact (fun o m ps k mo => patch_null ps o m k mo). Qed.
Print Assumptions C26_nulls_partial.

(** Refuted: a null below a key that the object lacks is written into the
    object; so is a null that the object already holds when the patch is equal
    to the object. *)
Theorem C26_nulls_refuted :
  patch_object [] [("spec"%string, JMap [("size"%string, JNull)])] = Some [("spec"%string, JMap [("size"%string, JNull)])]
  /\ patch_object [("spec"%string, JMap [])] [("spec"%string, JMap [("size"%string, JNull)])] = Some [("spec"%string, JMap [])]
  /\ patch_object [("size"%string, JNull)] [("size"%string, JNull)] = Some [("size"%string, JNull)]
  /\ patch_object [("a"%string, JInt 1); ("size"%string, JNull)] [("size"%string, JNull)] = Some [("a"%string, JInt 1)].
Proof. repeat split; vm_compute; reflexivity. Qed.
Print Assumptions C26_nulls_refuted.

Definition ex_o : json := JMap [("spec"%string, JMap [("image"%string, JStr "v1"); ("ports"%string, JList [JInt 80; JMap [("name"%string, JStr "x")]; JInt 90]); ("size"%string, JInt 3)]); ("status"%string, JStr "ok")].
Definition ex_m : json := JMap [("spec"%string, JMap [("image"%string, JStr "v2"); ("ports"%string, JList [JInt 81; JMap [("port"%string, JInt 1)]]); ("size"%string, JNull)])].
Ltac wf := repeat first [constructor | (apply jwf_map; [repeat (apply SSorted_cons || apply SSorted_nil || constructor)|]) ]; try reflexivity.
Lemma ex_wf : jwf ex_o /\ jwf ex_m.
Proof. split; unfold ex_o, ex_m; wf. Qed.
Example ex_C26 : jwf ex_o /\ jwf ex_m /\ nonan ex_m /\ nonull ex_o
  /\ patch ex_o ex_m = JMap [("spec"%string, JMap [("image"%string, JStr "v2"); ("ports"%string, JList [JInt 81; JMap [("name"%string, JStr "x"); ("port"%string, JInt 1)]; JInt 90])]); ("status"%string, JStr "ok")]
  /\ at_path ex_m [Key "spec"; Key "ports"; Idx 1; Key "port"] = Some (JInt 1)
  /\ untouched ex_m [Key "spec"; Key "ports"; Idx 1; Key "name"] /\ untouched ex_m [Key "spec"; Key "ports"; Idx 2] /\ untouched ex_m [Key "status"]
  /\ at_path ex_m ([Key "spec"] ++ [Key "size"]) = Some JNull /\ (exists mo, at_path ex_o [Key "spec"] = Some (JMap mo)).
Proof.
  split; [apply ex_wf|]. split; [apply ex_wf|]. split; [unfold ex_m; repeat constructor|]. split; [unfold ex_o; repeat constructor|].
  split; [vm_compute; reflexivity|]. repeat split. eexists. reflexivity.
Qed.

(** ** C27 *)

(** Null is a left identity. *)
Theorem C27_null : forall v, merge JNull v = Some v.
Proof. done. Qed.
Print Assumptions C27_null.
(** Lists are concatenated; strings, numbers and booleans on the right win. *)
Theorem C27_lists : forall l l', merge (JList l) (JList l') = Some (JList (l ++ l')).
Proof. done. Qed.
Print Assumptions C27_lists.
Theorem C27_leaf : forall a b, leaf b -> merge a b = Some b.
Proof. intros [] [] H; done. Qed.
Print Assumptions C27_leaf.
(** Maps: a key is in the result exactly when it is on one side; what is on one
    side only is unchanged, and what is on both sides is merged. *)
Theorem C27_maps : forall a b r, owf a -> owf b -> merge (JMap a) (JMap b) = Some r ->
  exists m, r = JMap m /\ owf m /\ forall k, match mget a k, mget b k with
    | None, None => mget m k = None
    | Some x, None | None, Some x => mget m k = Some x
    | Some x, Some y => exists z, merge x y = Some z /\ mget m k = Some z
    end.
Proof.
  intros a b r Ha Hb E. destruct (merge_maps a b) as [(m & E' & S1 & G & O)|[E' _]]; [by apply owf_sorted|by apply owf_sorted| |by rewrite E in E'].
  rewrite E in E'. injection E' as ->. exists m. split; [done|]. split; [exact (merge_wf _ _ _ Ha Hb E)|]. intros k. rewrite G.
  destruct (mget a k) as [x|] eqn:Ex, (mget b k) as [y|] eqn:Ey; try done. cbn [both]. specialize (O k x y Ex Ey). destruct (merge x y); [by eexists|done].
Qed.
Print Assumptions C27_maps.
(** Values of the same kind merge without error and associatively. *)
Theorem C27_defined : forall a b, jwf a -> jwf b -> compatible a b -> exists r, merge a b = Some r /\ jwf r.
Proof. intros a b Ha Hb C. destruct (compatible_ok a b Ha Hb C) as [r E]. exists r. split; [done|]. exact (merge_wf _ _ _ Ha Hb E). Qed.
Print Assumptions C27_defined.
Theorem C27_associative_partial : forall a b c, jwf a -> jwf b -> jwf c -> compatible a b ->
  (ab ← merge a b; merge ab c) = (bc ← merge b c; merge a bc).
Proof. exact merge_assoc. Qed.
Print Assumptions C27_associative_partial.

(** Refuted in general: values of different kinds do not merge associatively,
    and a null on the right is an error. *)
Theorem C27_associative_refuted :
  (ab ← merge (JList [JInt 1]) (JStr "x"); merge ab (JList [JInt 2])) = Some (JList [JInt 2])
  /\ (bc ← merge (JStr "x") (JList [JInt 2]); merge (JList [JInt 1]) bc) = Some (JList [JInt 1; JInt 2])
  /\ merge (JMap [("a"%string, JInt 1)]) (JMap [("a"%string, JNull)]) = None.
Proof. repeat split. Qed.
Print Assumptions C27_associative_refuted.

Example ex_C27 : let a := JMap [("l"%string, JList [JInt 1]); ("x"%string, JInt 1)] in let b := JMap [("l"%string, JList [JInt 2]); ("y"%string, JStr "b")] in
  jwf a /\ jwf b /\ compatible a b
  /\ merge a b = Some (JMap [("l"%string, JList [JInt 1; JInt 2]); ("x"%string, JInt 1); ("y"%string, JStr "b")]).
Proof.
  cbv zeta. split; [wf|]. split; [wf|]. split; [|vm_compute; reflexivity]. apply compatible_map. intros k v w. simpl.
  repeat case_decide; subst; try done; intros [= <-] [= <-]; constructor; done.
Qed.
