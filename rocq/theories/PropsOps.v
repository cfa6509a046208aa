(** Properties C03 (operators), C05-C09: operators on Z-sets and streams.

    [zwf z] is the representation invariant, which C02_representation gives for
    every Z-set a program can build.  [zcount z k] is the multiplicity of the
    document with identity [k].  [res_eq r1 r2]: both fail, or both succeed with
    the same multiplicities. *)
From Verif Require Import ZSetModel OpsModel ExecModel ZSetSpec ZSetProofs ZSetProofs2 OpsSpec OpsProofs ExecSpec StreamProofs JoinProofs TestDocs PropsZSet.

(** C03: select, project and unwind under two iteration orders, even on two
    representations of the same Z-set. *)
Theorem C03_select_project_unwind_order {DD : Docs} : forall o1 o2 a b,
  order_ok o1 -> order_ok o2 -> zwf a -> zwf b -> zeq a b ->
  (forall ev, ev_ok ev -> res_eq (select o1 ev a) (select o2 ev b))
  /\ (forall ev, ev_ok ev -> res_eq (project o1 ev a) (project o2 ev b))
  /\ (forall ex tr, ev_ok (unwind_ev ex tr) -> res_eq (unwind o1 ex tr a) (unwind o2 ex tr b)).
Proof.
  exact (fun o1 o2 a b H1 H2 Wa Wb E =>
    conj (fun ev Hev => linear_order _ ev (select_linear ev) Hev o1 o2 a b H1 H2 Wa Wb E)
    (conj (fun ev Hev => linear_order _ ev (project_linear ev) Hev o1 o2 a b H1 H2 Wa Wb E)
      (fun ex tr Hev => linear_order _ _ (unwind_linear ex tr) Hev o1 o2 a b H1 H2 Wa Wb E))).
Qed.
Print Assumptions C03_select_project_unwind_order.

(** C03: the snapshot joins. *)
Theorem C03_join_order {DD : Docs} : forall jev o1 o2, jev_ok jev -> order_ok o1 -> order_ok o2 ->
  (forall n xs ys, Forall zwf xs -> Forall zwf ys -> Forall2 zeq xs ys ->
     res_eq (join_snapshot o1 jev n xs) (join_snapshot o2 jev n ys))
  /\ (forall l1 r1 l2 r2, zwf l1 -> zwf r1 -> zwf l2 -> zwf r2 -> zeq l1 l2 -> zeq r1 r2 ->
        res_eq (bjoin o1 jev l1 r1) (bjoin o2 jev l2 r2)).
Proof.
  exact (fun jev o1 o2 Hj H1 H2 =>
    conj (fun n xs ys Wx Wy F => join_snapshot_order jev n o1 o2 xs ys Hj H1 H2 Wx Wy F)
         (fun l1 r1 l2 r2 A B C D E F => bjoin_order jev o1 o2 l1 r1 l2 r2 Hj H1 H2 A B C D E F)).
Qed.
Print Assumptions C03_join_order.

(** C03: the incremental join over a whole stream, orders chosen anew at every
    evaluation, errors included. *)
Theorem C03_incremental_join_order {DD : Docs} : forall jev n o1 o2 dss,
  jev_ok jev -> order_ok o1 -> order_ok o2 -> Forall (Forall zwf) dss ->
  Forall2 res_eq (jprocess_run o1 0 (new_inc_join jev n) dss).2
                 (jprocess_run o2 0 (new_inc_join jev n) dss).2.
Proof. exact (fun jev n o1 o2 dss => inc_join_order_stream jev n o1 o2 dss). Qed.
Print Assumptions C03_incremental_join_order.

(** Concrete user code that respects identity: keep documents with a value
    above 7; add one to the value; list the digits. *)
Definition ex_sel : evaluator := fun d => Some (if 7 <? d_val d then [d] else []).
Definition ex_proj : evaluator := fun d => if d_val d =? 666 then None else Some [TDoc (d_id d) (d_val d / 10) true].
Definition ex_ext : list_extractor := fun d => if d_val d =? 0 then Some None else Some (Some [d_val d; 1]).
Definition ex_tr : elem_transformer := fun d v => Some (TDoc (d_id d) v (d_rep d)).
Definition ex_jev : join_evaluator := fun t =>
  match t with
  | [x; y] => Some (if d_id x =? d_id y then [TDoc (d_id x) (d_val x + d_val y) true] else [])
  | _ => Some []
  end.
Ltac same_docs := intros [i1 v1 r1] [i2 v2 r2] k; simpl; destruct (i1 <? 0) eqn:?, (i2 <? 0) eqn:?; try done;
  intros [= <-] [= -> ->]; simpl.
Lemma ex_sel_ok : ev_ok ex_sel.
Proof. same_docs. unfold ex_sel; simpl. destruct (7 <? v1); simpl; [|done]. by rewrite Heqb. Qed.
Lemma ex_proj_ok : ev_ok ex_proj.
Proof. same_docs. unfold ex_proj; simpl. destruct (v1 =? 666); simpl; done. Qed.
Lemma ex_unwind_ok : ev_ok (unwind_ev ex_ext ex_tr).
Proof. same_docs. unfold unwind_ev, ex_ext; simpl. destruct (v1 =? 0); simpl; [done|]. by rewrite Heqb. Qed.
Lemma ex_jev_ok : jev_ok ex_jev.
Proof.
  intros t1 t2 F. unfold ex_jev. destruct F as [|x1 y1 t1 t2 Ha F]; [done|]. destruct F as [|x2 y2 t1 t2 Hb F]; [done|].
  destruct F; [|done]. unfold ex_jev. destruct Ha as (ka & A1 & A2), Hb as (kb & B1 & B2).
  destruct x1 as [i1 v1 r1], x2 as [i2 v2 r2], y1 as [i3 v3 r3], y2 as [i4 v4 r4]. simpl in *.
  destruct (i1 <? 0), (i2 <? 0), (i3 <? 0) eqn:E3, (i4 <? 0); try done. simplify_eq. destruct (i3 =? i4); done.
Qed.
Example ex_C03_ops : order_ok rev_order /\ zwf ex_z /\ ev_ok ex_proj
  /\ bool_decide (is_Some (project rev_order ex_proj ex_z)) = true
  /\ bool_decide (project rev_order ex_proj (default zempty (zsingleton (TDoc 4 666 true))) = None) = true.
Proof.
  split; [apply ex_z_reachable|]. split; [apply reachable_wf, ex_z_reachable|]. split; [apply ex_proj_ok|].
  split; vm_compute; reflexivity.
Qed.

(** C05: on a sum. Success on both parts implies success on the sum. *)
Theorem C05_linear_sum {DD : Docs} : forall o o1 o2 o3 a b s,
  order_ok o -> order_ok o1 -> order_ok o2 -> order_ok o3 -> zwf a -> zwf b -> zadd o a b = Some s ->
  let linear f := forall fa fb, f o1 a = Some fa -> f o2 b = Some fb ->
     exists fs, f o3 s = Some fs /\ zwf fs /\ forall k, zcount fs k = zcount fa k + zcount fb k in
  (forall ev, ev_ok ev -> linear (fun o => select o ev))
  /\ (forall ev, ev_ok ev -> linear (fun o => project o ev))
  /\ (forall ex tr, ev_ok (unwind_ev ex tr) -> linear (fun o => unwind o ex tr)).
Proof.
  exact (fun o o1 o2 o3 a b s H H1 H2 H3 Wa Wb E =>
    conj (fun ev Hev fa fb => linear_add _ ev (select_linear ev) Hev o o1 o2 o3 a b s fa fb H H1 H2 H3 Wa Wb E)
    (conj (fun ev Hev fa fb => linear_add _ ev (project_linear ev) Hev o o1 o2 o3 a b s fa fb H H1 H2 H3 Wa Wb E)
     (fun ex tr Hev fa fb => linear_add _ _ (unwind_linear ex tr) Hev o o1 o2 o3 a b s fa fb H H1 H2 H3 Wa Wb E))).
Qed.
Print Assumptions C05_linear_sum.

Theorem C05_linear_difference {DD : Docs} : forall o o1 o2 o3 a b s,
  order_ok o -> order_ok o1 -> order_ok o2 -> order_ok o3 -> zwf a -> zwf b -> zsub o a b = Some s ->
  let linear f := forall fa fb, f o1 a = Some fa -> f o2 b = Some fb ->
     exists fs, f o3 s = Some fs /\ zwf fs /\ forall k, zcount fs k = zcount fa k - zcount fb k in
  (forall ev, ev_ok ev -> linear (fun o => select o ev))
  /\ (forall ev, ev_ok ev -> linear (fun o => project o ev))
  /\ (forall ex tr, ev_ok (unwind_ev ex tr) -> linear (fun o => unwind o ex tr)).
Proof.
  exact (fun o o1 o2 o3 a b s H H1 H2 H3 Wa Wb E =>
    conj (fun ev Hev fa fb => linear_sub _ ev (select_linear ev) Hev o o1 o2 o3 a b s fa fb H H1 H2 H3 Wa Wb E)
    (conj (fun ev Hev fa fb => linear_sub _ ev (project_linear ev) Hev o o1 o2 o3 a b s fa fb H H1 H2 H3 Wa Wb E)
     (fun ex tr Hev fa fb => linear_sub _ _ (unwind_linear ex tr) Hev o o1 o2 o3 a b s fa fb H H1 H2 H3 Wa Wb E))).
Qed.
Print Assumptions C05_linear_difference.

Theorem C05_empty_to_empty {DD : Docs} : forall o, order_ok o ->
  (forall ev, exists z, select o ev zempty = Some z /\ zis_zero z = true)
  /\ (forall ev, exists z, project o ev zempty = Some z /\ zis_zero z = true)
  /\ (forall ex tr, exists z, unwind o ex tr zempty = Some z /\ zis_zero z = true).
Proof.
  exact (fun o Ho => conj (fun ev => linear_empty _ ev (select_linear ev) o Ho)
    (conj (fun ev => linear_empty _ ev (project_linear ev) o Ho)
          (fun ex tr => linear_empty _ _ (unwind_linear ex tr) o Ho))).
Qed.
Print Assumptions C05_empty_to_empty.

(** C05: feeding deltas one at a time accumulates to evaluating the whole. *)
Theorem C05_deltas_accumulate {DD : Docs} : forall zs outs whole o, order_ok o -> Forall zwf zs -> is_total whole zs ->
  let accumulates f := Forall2 (fun z y => exists o, order_ok o /\ f o z = Some y) zs outs ->
     exists y, f o whole = Some y /\ is_total y outs in
  (forall ev, ev_ok ev -> accumulates (fun o => select o ev))
  /\ (forall ev, ev_ok ev -> accumulates (fun o => project o ev))
  /\ (forall ex tr, ev_ok (unwind_ev ex tr) -> accumulates (fun o => unwind o ex tr)).
Proof.
  exact (fun zs outs whole o Ho Wz Ht =>
    conj (fun ev Hev => linear_stream _ ev (select_linear ev) Hev zs outs whole o Ho Ht Wz)
    (conj (fun ev Hev => linear_stream _ ev (project_linear ev) Hev zs outs whole o Ho Ht Wz)
      (fun ex tr Hev => linear_stream _ _ (unwind_linear ex tr) Hev zs outs whole o Ho Ht Wz))).
Qed.
Print Assumptions C05_deltas_accumulate.

(** C05: what each document contributes: its own multiplicity times the number
    of times the evaluator yields the result; and exactly when the operator fails. *)
Theorem C05_pointwise {DD : Docs} :
  (forall ev, linear_ext (fun o => select o ev) ev)
  /\ (forall ev, linear_ext (fun o => project o ev) ev)
  /\ (forall ex tr, linear_ext (fun o => unwind o ex tr) (unwind_ev ex tr)).
Proof. exact (conj select_linear (conj project_linear unwind_linear)). Qed.
Print Assumptions C05_pointwise.

(** Two documents merging into one and cancelling: ids 1/1, values 12 and 13
    both map to 1. *)
Definition ex_a : zset := default zempty (add_all zempty [(TDoc 1 12 true, 2); (TDoc 2 20 true, -3)]).
Definition ex_b : zset := default zempty (add_all zempty [(TDoc 1 13 true, -2); (TDoc 2 20 true, 3)]).
Example ex_C05 : ev_ok ex_proj /\ zwf ex_a /\ zwf ex_b /\
  (zis_zero <$> zadd std_order ex_a ex_b) = Some false
  /\ (zis_zero <$> project std_order ex_proj ex_a) = Some false
  /\ (zis_zero <$> (s ← zadd std_order ex_a ex_b; project std_order ex_proj s)) = Some true.
Proof.
  split; [apply ex_proj_ok|]. split; [|split].
  - apply reachable_wf. eapply (add_all_reachable (DD:=test_docs) [(TDoc 1 12 true, 2); (TDoc 2 20 true, -3)]); [apply r_empty|reflexivity].
  - apply reachable_wf. eapply (add_all_reachable (DD:=test_docs) [(TDoc 1 13 true, -2); (TDoc 2 20 true, 3)]); [apply r_empty|reflexivity].
  - split; [|split]; vm_compute; reflexivity.
Qed.

(** C06 *)
Theorem C06_integrate_differentiate {DD : Docs} : forall sortv o zs, order_ok o -> Forall zwf zs ->
  emits (chain_run sortv o 0 (user_chain [new_integrator; new_differentiator]) zs).2 zs.
Proof. exact (fun sortv o zs Ho Wz => int_diff_run sortv o zs false false Ho Wz 0%nat zempty zempty wf_empty wf_empty (fun k => eq_refl)). Qed.
Print Assumptions C06_integrate_differentiate.

Theorem C06_differentiate_integrate {DD : Docs} : forall sortv o zs, order_ok o -> Forall zwf zs ->
  emits (chain_run sortv o 0 (user_chain [new_differentiator; new_integrator]) zs).2 zs.
Proof. exact (fun sortv o zs Ho Wz => diff_int_run sortv o zs false false Ho Wz 0%nat zempty zempty wf_empty wf_empty (fun k => eq_refl)). Qed.
Print Assumptions C06_differentiate_integrate.

Theorem C06_delay_shifts {DD : Docs} : forall sortv o zs, Forall zwf zs ->
  (chain_run sortv o 0 (user_chain [new_delay]) zs).2 = map Some (take (length zs) (zempty :: zs)).
Proof. exact (fun sortv o zs Wz => delay_run sortv o zs false Wz 0%nat zempty wf_empty). Qed.
Print Assumptions C06_delay_shifts.

Example ex_C06 :
  map (fun r => y ← r; zmult y (TDoc 1 13 true))
    (chain_run (fun l => l) rev_order 0 (user_chain [new_integrator; new_differentiator]) [ex_a; ex_b]).2
  = [Some 0; Some (-2)].
Proof. vm_compute. reflexivity. Qed.

(** C07: [dss] is a stream of [n]-tuples of deltas, [As] the tuple of sums of
    the first [m] deltas of each input.  [join_mult jev As k] is the number of
    times [jev] yields [k] over all tuples, each weighted with the product of
    the multiplicities of its components. *)
Theorem C07_incremental_join {DD : Docs} : forall jev n o dss j' outs m As o',
  (0 < n)%nat -> jev_ok jev -> order_ok o -> order_ok o' ->
  Forall (Forall zwf) dss -> jprocess_run o 0 (new_inc_join jev n) dss = (j', map Some outs) ->
  length As = n -> Forall zwf As ->
  (forall i a, As !! i = Some a -> forall k, zcount a k = lsum (fun ds => zcount (default zempty (ds !! i)) k) (take m dss)) ->
  exists y, join_snapshot o' jev n As = Some y /\ is_total y (take m outs) /\ forall k, zcount y k = join_mult jev As k.
Proof. exact (fun jev n o dss j' outs m As o' => c07_stream jev n o dss j' outs m As o'). Qed.
Print Assumptions C07_incremental_join.

Example ex_C07 : jev_ok ex_jev /\
  map (fun r => y ← r; zmult y (TDoc 1 22 true))
    (jprocess_run rev_order 0 (new_inc_join ex_jev 2) [[ex_a; ex_z]; [ex_b; zempty]; [ex_z; ex_a]]).2
  = [Some 6; Some 0; Some 6].
Proof. split; [apply ex_jev_ok|]. vm_compute. reflexivity. Qed.

(** C08 *)
Theorem C08_incremental_binary_join {DD : Docs} : forall jev o dss j' outs m L R o',
  jev_ok jev -> order_ok o -> order_ok o' ->
  Forall (Forall zwf) dss -> jprocess_run o 0 (new_inc_bin_join jev) dss = (j', map Some outs) ->
  zwf L -> zwf R ->
  (forall k, zcount L k = lsum (fun ds => zcount (default zempty (ds !! 0%nat)) k) (take m dss)) ->
  (forall k, zcount R k = lsum (fun ds => zcount (default zempty (ds !! 1%nat)) k) (take m dss)) ->
  exists y, bjoin o' jev L R = Some y /\ is_total y (take m outs) /\ forall k, zcount y k = join_mult jev [L; R] k.
Proof. exact (fun jev o dss j' outs m L R o' => c08_stream jev o dss j' outs m L R o'). Qed.
Print Assumptions C08_incremental_binary_join.

(** C08: step by step, errors included, the binary join and the n-ary join on
    two inputs emit the same. *)
Theorem C08_binary_agrees_with_nary {DD : Docs} : forall jev o1 o2 pairs,
  jev_ok jev -> order_ok o1 -> order_ok o2 ->
  Forall (fun p : zset * zset => zwf p.1 /\ zwf p.2) pairs ->
  Forall2 res_eq (jprocess_run o1 0 (new_inc_bin_join jev) (map (fun p => [p.1; p.2]) pairs)).2
                 (jprocess_run o2 0 (new_inc_join jev 2) (map (fun p => [p.1; p.2]) pairs)).2.
Proof. exact (fun jev o1 o2 pairs => bin_nary_stream jev o1 o2 pairs). Qed.
Print Assumptions C08_binary_agrees_with_nary.

Example ex_C08 :
  map (fun r => y ← r; zmult y (TDoc 1 22 true))
    (jprocess_run rev_order 0 (new_inc_bin_join ex_jev) [[ex_a; ex_z]; [ex_b; zempty]; [ex_z; ex_a]]).2
  = [Some 6; Some 0; Some 6].
Proof. vm_compute. reflexivity. Qed.

(** C09: for every prefix of the stream, the accumulated outputs equal the
    operator applied to (some representation of) the accumulated input. *)
Theorem C09_lifted_nonlinear {DD : Docs} : forall sortv F o zs cs' outs n,
  is_nonlinear F = true -> order_ok o -> Forall zwf zs ->
  chain_run sortv o 0 (lifted F) zs = (cs', map Some outs) ->
  exists a y o', is_total a (take n zs) /\ order_ok o' /\ (process sortv o' F a).2 = Some y /\ is_total y (take n outs).
Proof. exact (fun sortv F o zs cs' outs n => c09_lifted sortv F o zs cs' outs n). Qed.
Print Assumptions C09_lifted_nonlinear.
Example ex_C09 :
  map (fun r => y ← r; m1 ← zmult y (TDoc 1 10 true); m2 ← zmult y (TDoc 1 12 true); Some (m1, m2))
    (chain_run (fun l => l) rev_order 0 (lifted ODistinct) [ex_z; ex_a]).2
  = [Some (1, 0); Some (0, 1)].
Proof. vm_compute. reflexivity. Qed.
