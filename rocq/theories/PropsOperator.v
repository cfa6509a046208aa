(** Property C45: the operators that run and the view kinds that are registered for
    them, after any history of reconciler calls. *)
From Verif Require Import JsonProofs ObjProofs RegistryModel RegistrySpec GroupProofs RegistryProofs RegistryProofs2 OperatorModel OperatorSpec OperatorProofs.
#[local] Open Scope nat_scope.

Lemma history_inv mapper builds servable h : native_mapper mapper -> history_ok mapper servable h ->
  oinv mapper builds (all_kinds mapper h) (wanted h) (orun mapper builds servable ready h).1 /\
  (orun mapper builds servable ready h).2 = map (fun c => if succeeds c then Done else Failed) h.
Proof.
  intros NM [HC HK]. apply (orun_inv mapper builds servable (all_kinds mapper h) HK h (fun _ => None) ready).
  - apply (oinv_ready mapper builds). - done.
  - intros c n cs Hc Hs x Hx. apply (oper_kinds mapper builds NM) in Hx. destruct Hx as [X K]. exists c, n, cs, (gvk_kind x). rewrite X at 2. rewrite <- view_group_spec. done.
Qed.

(** Exactly the wanted operators run: once each, with the controllers of the latest
    specification.  Missing: view kinds that the API server refuses, operators
    added before Start or outside Reconcile (see the refutations). *)
Theorem C45_running_partial : forall mapper builds servable h, native_mapper mapper -> history_ok mapper servable h ->
  let s := (orun mapper builds servable ready h).1 in
  forall n, match wanted h n with
            | None => forall i o, ~ running s n i o
            | Some cs => exists i o, running s n i o /\ (forall j o', running s n j o' -> j = i /\ o' = o) /\
                 map k_spec (o_ctrls o) = cs /\ forall k, k ∈ o_ctrls o -> k = new_declarative mapper builds n (k_spec k)
            end.
Proof.
  intros mapper builds servable h NM HO s n. destruct (history_inv mapper builds servable h NM HO) as [I _]. fold s in I.
  pose proof (oinv_ops _ _ _ _ _ n I) as H.
  assert (KS : forall c, k_spec (new_declarative mapper builds n c) = c).
  { intros c. unfold new_declarative. case_decide; [done|]. destruct (c_sources c); [done|]. destruct (c_target c); [|done]. by destruct (res_gvk mapper n r0). }
  destruct (wanted h n) as [cs|].
  - destruct H as (i & E & L). exists i, (Oper n (map (new_declarative mapper builds n) cs)). split; [done|]. split; [|split].
    + intros j o' [Lj Nj]. destruct (oi_live _ _ _ _ _ I j o' Lj) as (_ & e & Ee & Qe & Oe). rewrite Nj, E in Ee. injection Ee as <-. cbn in *. split; congruence.
    + cbn. rewrite map_map. rewrite (map_ext _ (fun c => c)); [apply map_id|]. apply KS.
    + cbn. intros k Hk. apply elem_of_list_In, in_map_iff in Hk. destruct Hk as (c & <- & _). by rewrite KS.
  - intros i o [L N]. destruct (oi_live _ _ _ _ _ I i o L) as (_ & e & Ee & _). rewrite N, H in Ee. done.
Qed.
Print Assumptions C45_running_partial.

(** The API server lists each view kind of the wanted operators exactly once, under
    the group of its operator, and lists no other kind of an operator's group. *)
Theorem C45_kinds_partial : forall mapper builds servable h, native_mapper mapper -> history_ok mapper servable h ->
  let s := (orun mapper builds servable ready h).1 in
  forall n, exists l, NoDup l
    /\ (forall x, x ∈ l <-> x = GVK (n +:+ ".view.dcontroller.io") "v1alpha1" (gvk_kind x) /\ exists cs, wanted h n = Some cs /\ view_kind_of mapper n cs (gvk_kind x))
    /\ let listed := match l with [] => None | _ => Some (map (fun x => (lower (gvk_kind x), x)) l) end in
       discover_version (api s) (n +:+ ".view.dcontroller.io") "v1alpha1" = listed
       /\ discover_aggregated (api s) (n +:+ ".view.dcontroller.io") "v1alpha1" = listed.
Proof.
  intros mapper builds servable h NM HO s n. destruct (history_inv mapper builds servable h NM HO) as [I _]. fold s in I.
  destruct (oi_api _ _ _ _ _ I) as (cur & A & B & C & D). exists (cur (view_group n)). rewrite <- view_group_spec. split; [|split].
  - rewrite (C n). destruct (wanted h n); [apply oper_nodup|constructor].
  - intros x. rewrite (C n). destruct (wanted h n) as [cs|].
    + rewrite (oper_kinds mapper builds NM). split; [intros [? ?]; split; [done|]; by exists cs|intros (? & cs' & [= <-] & ?); done].
    + split; [intros H; by apply elem_of_nil in H|intros (_ & cs & ? & _); done].
  - cbn zeta. split.
    + etransitivity; [apply (inv_versions _ _ _ A)|]. unfold expected. by destruct (cur (view_group n)).
    + etransitivity; [apply (inv_aggr _ _ _ A)|]. unfold expected. by destruct (cur (view_group n)).
Qed.
Print Assumptions C45_kinds_partial.

(** And it serves them and no others. *)
Theorem C45_served_partial : forall mapper builds servable h, native_mapper mapper -> history_ok mapper servable h ->
  let s := (orun mapper builds servable ready h).1 in
  forall n v r, served (api s) (n +:+ ".view.dcontroller.io") v r <->
    v = "v1alpha1"%string /\ exists cs kind, wanted h n = Some cs /\ view_kind_of mapper n cs kind /\ lower kind = r.
Proof.
  intros mapper builds servable h NM HO s n v r. destruct (history_inv mapper builds servable h NM HO) as [I _]. fold s in I.
  destruct (oi_api _ _ _ _ _ I) as (cur & A & B & C & D). rewrite <- view_group_spec. unfold served. split.
  - intros (x & H). apply served_storage in H. destruct H as [_ H]. pose proof (B _ _ H) as Hx. destruct (inv_only _ _ _ A _ _ H) as (Q & _ & _).
    unfold resource_of in Q. injection Q as Q1 -> ->. rewrite <- Q1, (C n) in Hx. split; [done|]. destruct (wanted h n) as [cs|]; [|by apply elem_of_nil in Hx].
    apply (oper_kinds mapper builds NM) in Hx. exists cs, (gvk_kind x). by destruct Hx.
  - intros (-> & cs & kind & W & K & <-). set (x := GVK (view_group n) "v1alpha1" kind).
    assert (Hx : x ∈ cur (view_group n)). { rewrite (C n), W. by apply (oper_kinds mapper builds NM). }
    destruct (inv_has _ _ _ A _ _ Hx) as (y & Hy & E). exists y. apply served_storage. split; [apply view_group_is|done].
Qed.
Print Assumptions C45_served_partial.

(** No call of the reconciler panics; those that fail are the failed reads and the
    failed creations, which controller-runtime repeats. *)
Theorem C45_outcomes_partial : forall mapper builds servable h, native_mapper mapper -> history_ok mapper servable h ->
  (orun mapper builds servable ready h).2 = map (fun c => if succeeds c then Done else Failed) h.
Proof. intros mapper builds servable h NM HO. by destruct (history_inv mapper builds servable h NM HO). Qed.
Print Assumptions C45_outcomes_partial.

(** *** A history *)
Definition nat_mapper (g k : string) : option gvk := if decide (g = "" /\ k = "Pod"%string) then Some (GVK "" "v1" "Pod") else None.
Lemma nat_mapper_ok : native_mapper nat_mapper.
Proof. intros g k x. unfold nat_mapper. case_decide; [|done]. intros [= <-]. reflexivity. Qed.
Definition pods : rsrc := RSrc (Some "") None "Pod".
Definition vw (k : string) : rsrc := RSrc None None k.
Definition c1 : cspec := CSpec "c1" [pods] (Some (vw "A")) "p1".
Definition c2 : cspec := CSpec "c2" [vw "A"; pods] (Some (vw "B")) "p2".
Definition c3 : cspec := CSpec "c3" [vw "A"] (Some (vw "C")) "p3".
(** Added, added, updated, a failed read, deleted, added again after a failure. *)
Definition hist : list ocall :=
  [Reconcile "x" (FSpec [c1; c2]) true; Reconcile "y" (FSpec [c1]) true; Reconcile "x" (FSpec [c1; c3]) true; Reconcile "x" FError true;
   Reconcile "y" FMissing true; Reconcile "y" (FSpec [c3]) false; Reconcile "y" (FSpec [c3]) true].
Definition mk (n k : string) : gvk := GVK (n +:+ ".view.dcontroller.io") "v1alpha1" k.
Definition some_kinds : list gvk := [mk "x" "A"; mk "x" "B"; mk "x" "C"; mk "y" "A"; mk "y" "C"].
Lemma all_kinds_hist x : all_kinds nat_mapper hist x -> x ∈ some_kinds.
Proof.
  intros (c & n & cs & kind & Hc & Hs & (k & t & Hk & _ & _ & Ht & HH) & ->). unfold hist in Hc.
  repeat (apply elem_of_cons in Hc; destruct Hc as [->|Hc]); try (by apply elem_of_nil in Hc); cbn in Hs;
    try (apply elem_of_nil in Hs; done); apply elem_of_list_singleton in Hs; injection Hs as -> ->;
    repeat (apply elem_of_cons in Hk; destruct Hk as [->|Hk]); try (by apply elem_of_nil in Hk); cbn in Ht; injection Ht as <-;
    (destruct HH as [(<- & _ & _)|(_ & r & Hr & (<- & _ & G))]; [cbn; repeat (first [left; reflexivity|right])|]); cbn in Hr;
    repeat (apply elem_of_cons in Hr; destruct Hr as [->|Hr]); try (by apply elem_of_nil in Hr);
    try (cbn in G; destruct G as [G|G]; done); cbn; repeat (first [left; reflexivity|right]).
Qed.
Definition kinds_check (l : list gvk) : bool :=
  forallb (fun x => String.eqb (gvk_version x) "v1alpha1" && negb (bool_decide (gvk_kind x ∈ reserved)) &&
    forallb (fun y => negb (String.eqb (gvk_kind y) (gvk_kind x +:+ "List"))) l) l.
Lemma kinds_check_ok l (M : gvk -> Prop) : kinds_check l = true -> (forall x, M x -> x ∈ l) -> kinds_ok (fun _ => true) M.
Proof.
  intros H HM x Mx. unfold kinds_check in H. rewrite forallb_forall in H. assert (Hx : In x l) by (apply elem_of_list_In; by apply HM). specialize (H x Hx).
  rewrite !andb_true_iff, String.eqb_eq, negb_true_iff, bool_decide_eq_false, forallb_forall in H. destruct H as [[A B] C]. split_and!; try done.
  intros y My _ E. specialize (C y). rewrite negb_true_iff, String.eqb_neq in C. apply C; [apply elem_of_list_In; by apply HM|done].
Qed.
Example ex_C45 : native_mapper nat_mapper /\ history_ok nat_mapper (fun _ => true) hist /\ wanted hist "x" = Some [c1; c3] /\ wanted hist "y" = Some [c3] /\
  view_kind_of nat_mapper "x" [c1; c3] "C" /\ served (api (orun nat_mapper (fun _ => true) (fun _ => true) ready hist).1) "x.view.dcontroller.io" "v1alpha1" "c".
Proof.
  assert (HO : history_ok nat_mapper (fun _ => true) hist).
  { split.
    - intros c Hc. repeat (apply elem_of_cons in Hc; destruct Hc as [->|Hc]); try done. by apply elem_of_nil in Hc.
    - apply (kinds_check_ok some_kinds); [vm_compute; done|apply all_kinds_hist]. }
  assert (VK : view_kind_of nat_mapper "x" [c1; c3] "C").
  { exists c3, (vw "C"). split; [right; left|]. split_and!; try done. left. split; [done|]. split; [done|]. by left. }
  split; [apply nat_mapper_ok|]. split; [done|]. split; [done|]. split; [done|]. split; [done|].
  apply (C45_served_partial nat_mapper (fun _ => true) (fun _ => true) hist nat_mapper_ok HO "x"). split; [done|]. exists [c1; c3], "C"%string. done.
Qed.

(** *** Where it fails *)
(** Adding an operator twice with AddOperatorFromSpec leaves the first one running
    for ever: no later delete stops it. *)
Theorem C45_twice_refuted : let s := (orun nat_mapper (fun _ => true) (fun _ => true) ready [AddFromSpec "x" [c1]; AddFromSpec "x" [c1; c3]; Reconcile "x" FMissing true]).1 in
  ops s !! "x" = None /\ exists i o, running s "x" i o /\ map k_spec (o_ctrls o) = [c1].
Proof. cbn zeta. split; [vm_compute; done|]. eexists 0, _. split; [split; vm_compute; reflexivity|vm_compute; reflexivity]. Qed.
Print Assumptions C45_twice_refuted.
(** Deleting an operator that was added but not started calls a nil function. *)
Theorem C45_before_start_refuted : forall mapper builds servable n cs,
  let s := (add_from_spec mapper builds servable true opctl_new n cs).1 in
  (reconcile_op mapper builds servable s n FMissing true).2 = Panicked.
Proof.
  intros mapper builds servable n cs. cbv zeta. unfold add_from_spec, add_spec. change (api_set opctl_new) with false. cbv iota. unfold add_operator. change (started opctl_new) with false. cbn [started fst].
  unfold reconcile_op, delete_operator. cbn [ops o_name]. by rewrite lookup_insert.
Qed.
Print Assumptions C45_before_start_refuted.
(** If the manager for an update cannot be created, the operator that ran before
    the update has been stopped. *)
Theorem C45_update_failure_refuted :
  let h := [Reconcile "x" (FSpec [c1]) true; Reconcile "x" (FSpec [c1; c3]) false] in
  let s := (orun nat_mapper (fun _ => true) (fun _ => true) ready h).1 in
  (forall i o, ~ running s "x" i o) /\ serve_http (api s) (Request "x.view.dcontroller.io" "v1alpha1" "a" "" "get") = Delegate.
Proof.
  cbn zeta. split; [|vm_compute; reflexivity]. intros i o [H _]. revert H. 
  match goal with |- live ?s !! i = Some o -> False => assert (E : map_to_list (live s) = []) by (vm_compute; reflexivity) end.
  apply map_to_list_empty_iff in E. by rewrite E, lookup_empty.
Qed.
Print Assumptions C45_update_failure_refuted.
(** Operators added before SetAPIServer never get their kinds registered. *)
Theorem C45_set_api_refuted :
  let s := (orun nat_mapper (fun _ => true) (fun _ => true) opctl_new [AddFromSpec "x" [c1]; SetAPI; StartAll ["x"%string]]).1 in
  (exists i o, running s "x" i o) /\ serve_http (api s) (Request "x.view.dcontroller.io" "v1alpha1" "a" "" "get") = Delegate.
Proof. cbn zeta. split; [eexists 0, _; split; vm_compute; reflexivity|vm_compute; reflexivity]. Qed.
Print Assumptions C45_set_api_refuted.
(** An update takes the kinds that it keeps away for a while: between the
    unregistration and the registration they are not served. *)
Theorem C45_downtime_refuted :
  let s := (orun nat_mapper (fun _ => true) (fun _ => true) ready [Reconcile "x" (FSpec [c1]) true]).1 in
  let between := (delete_operator nat_mapper s "x").1 in
  let after := (upsert_operator nat_mapper (fun _ => true) (fun _ => true) true s "x" [c1; c3]).1 in
  let q := Request "x.view.dcontroller.io" "v1alpha1" "a" "" "get" in
  serve_http (api s) q = Handle (mk "x" "A") "get" /\ serve_http (api between) q = Delegate /\ serve_http (api after) q = Handle (mk "x" "A") "get".
Proof. cbn zeta. split_and!; vm_compute; reflexivity. Qed.
Print Assumptions C45_downtime_refuted.

(** *** Start and AddOperator at the same time *)
(** Under every schedule that lets both finish, the operator is started. *)
Theorem C45_race_started : forall ws, let r := race ws in add_pc r = 3 -> start_pc r = 2 -> runs r <> None.
Proof.
  intros ws r A B. pose proof (race_inv ws) as I. fold r in I. intros E. destruct (ri_three _ I A E) as [Q|[Q _]]; rewrite B in Q; done.
Qed.
Print Assumptions C45_race_started.
(** It can be stopped later exactly if it was started once. *)
Theorem C45_race_stopped : forall ws, let r := race ws in after_delete r = None <-> errors r = 0.
Proof.
  intros ws r. pose proof (race_inv ws) as I. fold r in I. unfold after_delete. rewrite (ri_runs _ I), (ri_cancels _ I), (ri_errors _ I).
  destruct (fresh_ctx r) as [|[|k]]; cbn; done.
Qed.
Print Assumptions C45_race_stopped.
Example ex_C45_race : let r := race [Adder; Adder; Starter; Starter] in add_pc r = 3 /\ start_pc r = 2 /\ runs r = Some 0 /\ errors r = 0.
Proof. vm_compute. done. Qed.
(** But it can be started twice, and then nothing stops it. *)
Theorem C45_race_refuted : exists ws, let r := race ws in add_pc r = 3 /\ start_pc r = 2 /\ errors r = 1 /\ after_delete r = Some 0.
Proof. exists [Adder; Starter; Adder; Starter; Adder]. vm_compute. done. Qed.
Print Assumptions C45_race_refuted.

(** A controller of a running operator has no critical error exactly if its specification
    has a name, sources and a target, the kinds of all of them are known, and its watches and
    pipeline can be made. *)
Theorem C45_healthy_partial : forall mapper builds servable h, native_mapper mapper -> history_ok mapper servable h ->
  let s := (orun mapper builds servable ready h).1 in
  forall n i o k, running s n i o -> k ∈ o_ctrls o -> let c := k_spec k in
  k_ok k = true <-> c_name c <> EmptyString /\ c_sources c <> [] /\ builds c = true /\
    exists t, c_target c = Some t /\ forall r, r ∈ t :: c_sources c -> res_gvk mapper n r <> None.
Proof.
  intros mapper builds servable h NM HO s n i o k R Hk c.
  assert (E : k = new_declarative mapper builds n c).
  { pose proof (C45_running_partial mapper builds servable h NM HO n) as W. fold s in W. destruct (wanted h n) as [cs|]; [|by destruct (W i o)].
    destruct W as (i' & o' & _ & U & _ & W). destruct (U i o R) as [_ <-]. by apply W. }
  rewrite E at 1. unfold new_declarative. case_decide as Hn; [split; [done|by intros (? & _)]|].
  destruct (c_sources c) as [|r rs] eqn:Es; [split; [done|by intros (_ & ? & _)]|]. destruct (c_target c) as [t|] eqn:Et; [|split; [done|by intros (_ & _ & _ & t & ? & _)]].
  destruct (res_gvk mapper n t) as [x|] eqn:Ex; [|split; [done|intros (_ & _ & _ & t' & [= <-] & H); destruct (H t); [left|done]]].
  cbn [k_ok]. rewrite andb_true_iff, forallb_forall. split.
  - intros [H B]. split_and!; [done..|]. exists t. split; [done|]. intros r' Hr. apply elem_of_cons in Hr as [->|Hr]; [by rewrite Ex|].
    apply elem_of_list_In in Hr. specialize (H r' Hr). by destruct (res_gvk mapper n r').
  - intros (_ & _ & B & t' & [= <-] & H). split; [|done]. intros r' Hr. apply elem_of_list_In in Hr. specialize (H r' (elem_of_list_further _ _ _ Hr)). by destruct (res_gvk mapper n r').
Qed.
Print Assumptions C45_healthy_partial.
Example ex_C45_healthy : map k_ok (o_ctrls (Oper "x" (map (new_declarative nat_mapper (fun _ => true) "x") [c1; CSpec "c" [pods] None ""; CSpec "c" [] (Some (vw "A")) ""; CSpec "c" [RSrc (Some "") None "Pot"; pods] (Some (vw "A")) ""])))
  = [true; false; false; false].
Proof. vm_compute. reflexivity. Qed.
