(** Properties C01-C04: Z-sets.  [order_ok o] says only that [o] enumerates
    each map in some order; every loop has its own, arbitrary order. *)
From Verif Require Import ZSetModel ZSetSpec ZSetProofs ZSetProofs2 TestDocs.

(** C01: Add is pointwise addition and never fails. *)
Theorem C01_add_is_sum {DD : Docs} : forall o a b, order_ok o -> reachable a -> reachable b ->
  exists s, zadd o a b = Some s /\ reachable s /\
    forall d ma mb, zmult a d = Some ma -> zmult b d = Some mb -> zmult s d = Some (ma + mb).
Proof. exact c01_add. Qed.
Print Assumptions C01_add_is_sum.

(** C01: Subtract is pointwise subtraction and never fails. *)
Theorem C01_sub_is_difference {DD : Docs} : forall o a b, order_ok o -> reachable a -> reachable b ->
  exists s, zsub o a b = Some s /\ reachable s /\
    forall d ma mb, zmult a d = Some ma -> zmult b d = Some mb -> zmult s d = Some (ma - mb).
Proof. exact c01_sub. Qed.
Print Assumptions C01_sub_is_difference.

Theorem C01_add_commutative {DD : Docs} : forall o1 o2 a b s1 s2,
  order_ok o1 -> order_ok o2 -> reachable a -> reachable b ->
  zadd o1 a b = Some s1 -> zadd o2 b a = Some s2 -> same_mult s1 s2.
Proof. exact c01_comm. Qed.
Print Assumptions C01_add_commutative.

Theorem C01_add_associative {DD : Docs} : forall o1 o2 o3 o4 a b c ab abc bc abc',
  order_ok o1 -> order_ok o2 -> order_ok o3 -> order_ok o4 ->
  reachable a -> reachable b -> reachable c ->
  zadd o1 a b = Some ab -> zadd o2 ab c = Some abc ->
  zadd o3 b c = Some bc -> zadd o4 a bc = Some abc' -> same_mult abc abc'.
Proof. exact c01_assoc. Qed.
Print Assumptions C01_add_associative.

(** C01: the empty Z-set (and a nil argument) is neutral. *)
Theorem C01_empty_neutral {DD : Docs} : forall o a, order_ok o -> reachable a ->
  (exists s, zadd o a zempty = Some s /\ same_mult s a)
  /\ (exists s, zadd o zempty a = Some s /\ same_mult s a)
  /\ (exists s, zadd_ptr o a None = Some s /\ same_mult s a)
  /\ (exists s, zsub_ptr o a None = Some s /\ same_mult s a).
Proof. exact c01_neutral. Qed.
Print Assumptions C01_empty_neutral.

Theorem C01_sub_self_is_zero {DD : Docs} : forall o a, order_ok o -> reachable a ->
  exists s, zsub o a a = Some s /\ zis_zero s = true.
Proof. exact c01_inverse. Qed.
Print Assumptions C01_sub_self_is_zero.

(** A non-trivial reachable Z-set with a negative multiplicity. *)
Definition ex_z : zset :=
  default zempty (add_all zempty [(TDoc 1 10 true, 2); (TDoc 2 20 true, -3); (TDoc 1 10 false, 1); (TDoc 3 5 true, 1)]).
Example ex_z_reachable : reachable ex_z /\ zmult ex_z (TDoc 1 10 true) = Some 3
  /\ zmult ex_z (TDoc 2 20 true) = Some (-3) /\ order_ok rev_order /\ order_ok std_order.
Proof.
  split; [|split; [|split; [|split]]].
  - eapply (add_all_reachable (DD:=test_docs) [(TDoc 1 10 true, 2); (TDoc 2 20 true, -3); (TDoc 1 10 false, 1); (TDoc 3 5 true, 1)]);
      [apply r_empty|reflexivity].
  - reflexivity.
  - reflexivity.
  - intros V p m. unfold rev_order. symmetry. apply Permutation_rev.
  - apply std_order_ok.
Qed.
Example ex_sum_runs : exists s, zadd rev_order ex_z ex_z = Some s /\ zmult s (TDoc 2 20 false) = Some (-6).
Proof. eexists. split; reflexivity. Qed.

(** C02: all observers agree; see [observers_agree] in ZSetSpec.v. *)
Theorem C02_observers_agree {DD : Docs} : forall o z, order_ok o -> reachable z -> observers_agree o z.
Proof. exact (fun o z Ho Rz => observers_ok o z Ho (reachable_wf z Rz)). Qed.
Print Assumptions C02_observers_agree.

(** C02: no stored multiplicity is zero, every document is stored under its own
    identity, and the two internal maps have the same keys. *)
Theorem C02_representation {DD : Docs} : forall z, reachable z -> zwf z.
Proof. exact reachable_wf. Qed.
Print Assumptions C02_representation.

Example ex_observers : zsize rev_order ex_z = 4 /\ ztotal_size rev_order ex_z = 7
  /\ zunique_count rev_order ex_z = 2 /\ zcontains ex_z (TDoc 2 20 true) = Some false
  /\ zcontains ex_z (TDoc (-1) 20 true) = None.
Proof. repeat split; reflexivity. Qed.

(** C03: building from the same pairs in any order. *)
Theorem C03_build_order_irrelevant {DD : Docs} : forall es1 es2, Permutation es1 es2 ->
  (add_all zempty es1 = None <-> add_all zempty es2 = None) /\
  forall z1 z2, add_all zempty es1 = Some z1 -> add_all zempty es2 = Some z2 -> same_mult z1 z2.
Proof. exact c03_build. Qed.
Print Assumptions C03_build_order_irrelevant.

(** C03: any two iteration orders. *)
Theorem C03_iteration_order_irrelevant {DD : Docs} : forall o1 o2 a b,
  order_ok o1 -> order_ok o2 -> reachable a -> reachable b ->
  (exists s1 s2, zadd o1 a b = Some s1 /\ zadd o2 a b = Some s2 /\ same_mult s1 s2)
  /\ (exists s1 s2, zsub o1 a b = Some s1 /\ zsub o2 a b = Some s2 /\ same_mult s1 s2)
  /\ (exists s1 s2, zdistinct o1 a = Some s1 /\ zdistinct o2 a = Some s2 /\ same_mult s1 s2)
  /\ (exists s1 s2, zunique o1 a = Some s1 /\ zunique o2 a = Some s2 /\ same_mult s1 s2).
Proof. exact c03_order. Qed.
Print Assumptions C03_iteration_order_irrelevant.

Example ex_orders_differ : zlist rev_order ex_z <> zlist std_order ex_z.
Proof. vm_compute. discriminate. Qed.

(** C04 *)
Theorem C04_distinct {DD : Docs} : forall o a, order_ok o -> reachable a ->
  exists s, zdistinct o a = Some s /\ reachable s /\
    forall d m, zmult a d = Some m -> zmult s d = Some (if 0 <? m then 1 else 0).
Proof. exact c04_distinct. Qed.
Print Assumptions C04_distinct.

Theorem C04_unique {DD : Docs} : forall o a, order_ok o -> reachable a ->
  exists s, zunique o a = Some s /\ reachable s /\
    forall d m, zmult a d = Some m -> zmult s d = Some (Z.sgn m).
Proof. exact c04_unique. Qed.
Print Assumptions C04_unique.

Theorem C04_distinct_idempotent {DD : Docs} : forall o1 o2 a s s',
  order_ok o1 -> order_ok o2 -> reachable a ->
  zdistinct o1 a = Some s -> zdistinct o2 s = Some s' -> same_mult s s'.
Proof. exact c04_distinct_idem. Qed.
Print Assumptions C04_distinct_idempotent.

Theorem C04_unique_idempotent {DD : Docs} : forall o1 o2 a s s',
  order_ok o1 -> order_ok o2 -> reachable a ->
  zunique o1 a = Some s -> zunique o2 s = Some s' -> same_mult s s'.
Proof. exact c04_unique_idem. Qed.
Print Assumptions C04_unique_idempotent.

Theorem C04_distinct_same_documents {DD : Docs} : forall o a s, order_ok o -> reachable a ->
  (forall d m, zmult a d = Some m -> 0 <= m) -> zdistinct o a = Some s ->
  forall d, zcontains s d = zcontains a d
    /\ (zcontains a d = Some true <-> exists m, zmult a d = Some m /\ m <> 0).
Proof. exact c04_distinct_pos. Qed.
Print Assumptions C04_distinct_same_documents.

Example ex_distinct : exists s, zdistinct rev_order ex_z = Some s
  /\ zmult s (TDoc 1 10 true) = Some 1 /\ zmult s (TDoc 2 20 true) = Some 0.
Proof. eexists. split; [reflexivity|]. split; reflexivity. Qed.
