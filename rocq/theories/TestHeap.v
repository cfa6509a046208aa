(** Surroundings for the examples on memory: paths with field names only, as in TestStage. *)
From Verif Require Import JsonModel JsonProofs ObjModel ExprModel ExprSpec CleanSpec HeapModel HeapSpec HeapProofs TestExpr TestStage.
#[local] Open Scope nat_scope.

Fixpoint hwalk (l : list string) (h : heap) (v : hval) : list hval :=
  match l with
  | [] => [v]
  | k :: l => match v with HRef n => match h !! n with Some (CMap m) => match kget m k with Some v => hwalk l h v | None => [] end | _ => [] end | _ => [] end
  end.
Definition path_names_of (q : string) : option (list string) :=
  match segs EmptyString q with
  | r :: (_ :: _) as l => if bool_decide (r = "$"%string) && forallb utf8_ok l then Some l else None
  | _ => None
  end.
#[global] Instance path_heap : HeapEnv :=
  {| hp_get q h v := match segs EmptyString q with r :: l => if bool_decide (r = "$"%string) then Some (hwalk l h v) else None | [] => None end;
     steps := path_names_of |}.

Lemma kget_reads D h vs m k : Forall2 (reads_kv D h) vs m ->
  match kget vs k, mget m k with Some v, Some j => (k, v) ∈ vs /\ reads D h j v | None, None => True | _, _ => False end.
Proof.
  induction 1 as [|[k1 v] [k2 j] vs m [K R] _ IH]; cbn; [done|]. cbn in K, R. subst k2. case_decide as E; [subst; split; [by left|done]|].
  destruct (kget vs k), (mget m k); try done. destruct IH. split; [by right|done].
Qed.
Lemma hwalk_ok h v0 l : forall v j, within h v0 v -> json_of h v = Some j -> Forall2 (fun w jw => within h v0 w /\ json_of h w = Some jw) (hwalk l h v) (walk l j).
Proof.
  induction l as [|k l IH]; intros v j W J; cbn; [by constructor; [|constructor]|]. apply json_reads in J as R. destruct j as [| | | | |l0|m]; [cbn in R; subst; constructor..| |].
  - rewrite reads_list in R. destruct R as (n & vs & -> & _ & E & _). rewrite E. constructor.
  - rewrite reads_map in R. destruct R as (n & vs & -> & _ & E & F). rewrite E. pose proof (kget_reads _ _ _ _ k F) as G. destruct (kget vs k) as [w|], (mget m k) as [jw|]; try done.
    destruct G as [G1 G2]. apply IH; [by eapply within_map|by eapply reads_json].
Qed.
Lemma put_set_at l v : forall d, l <> [] -> put l v (JMap d) = JMap <$> set_at l v d.
Proof.
  induction l as [|k l IH]; intros d Hl; [done|]. destruct l as [|k2 l]; [done|].
  change (put (k :: k2 :: l) v (JMap d)) with (x ← put (k2 :: l) v (match mget d k with Some x => x | None => JMap [] end); Some (JMap (mset d k x))).
  change (set_at (k :: k2 :: l) v d) with (match mget d k with
    | None => x ← set_at (k2 :: l) v []; Some (mset d k (JMap x))
    | Some (JMap m) => x ← set_at (k2 :: l) v m; Some (mset d k (JMap x))
    | Some _ => None end).
  destruct (mget d k) as [[| | | | | |m]|]; try done; rewrite IH by done; by destruct (set_at (k2 :: l) v _).
Qed.
Lemma path_faithful : faithful_paths.
Proof.
  split.
  - intros q h v j J. cbn. unfold simple_get. destruct (segs EmptyString q) as [|r l]; [done|]. case_bool_decide; [|done]. apply hwalk_ok; [constructor|done].
  - intros q p. cbn. unfold path_names_of, path_set. destruct (segs EmptyString q) as [|r [|k l]]; [done|done|].
    destruct (bool_decide (r = "$"%string) && forallb utf8_ok (k :: l)); [|done].
    intros [= <-]. split; [done|]. intros v d. by apply put_set_at.
Qed.
Lemma kget_in {A} (m : list (string * A)) k v : kget m k = Some v -> (k, v) ∈ m.
Proof. induction m as [|[k' w] m IH]; cbn; [done|]. case_decide; [subst; intros [= ->]; by left|]. intros G. right. by apply IH. Qed.
Lemma path_inner : inner_paths.
Proof.
  intros q h v vs w. cbn. destruct (segs EmptyString q) as [|r l]; [done|]. case_bool_decide; [|done]. intros [= <-].
  assert (G : forall l u, within h v u -> w ∈ hwalk l h u -> within h v w); [|apply G; constructor]. clear. induction l as [|k l IH]; intros u W; cbn.
  - by intros ->%elem_of_list_singleton.
  - destruct u as [| | | | |n]; try (by intros ?%elem_of_nil). destruct (h !! n) as [[|m]|] eqn:E; try (by intros ?%elem_of_nil).
    destruct (kget m k) as [x|] eqn:K; [|by intros ?%elem_of_nil]. apply IH. eapply within_map; [exact W|exact E|by apply kget_in].
Qed.
