(** The work queue: nothing is lost, and everything waiting is tried in turn. *)
From Verif Require Import JsonModel ObjModel ZSetModel OpsModel ExecModel PipelineModel ReconcilerModel PipelineSpec CrewSpec.

Section queue.
Context {FF : FloatFmt}.
Variable P : jobj -> bool.
Variable sortv : list json -> list json.
Context {W : Type}.
Implicit Types q : list delta.

Lemma queue_kept o (wrs : list (W -> delta -> option W)) : forall n st q st' q',
  queue_run P sortv o n (st, q) wrs = (st', q') ->
  exists tried oks, inc_run P sortv o n st tried = (st', oks)
    /\ map snd tried `prefix_of` wrs /\ (q' = [] \/ map snd tried = wrs)
    /\ take (length q) (map fst tried) = take (length tried) q
    /\ Permutation q (succeeded (zip (map fst tried) oks) ++ q').
Proof.
  induction wrs as [|wr wrs IH]; intros n st q st' q'.
  - cbn [queue_run]. intros [= <- <-]. exists [], []. cbn. split_and!; auto. by rewrite take_nil.
  - cbn [queue_run]. unfold queue_step. destruct q as [|d q].
    + intros E. assert (E' : forall n, queue_run P sortv o n (st, []) wrs = (st, [])).
      { clear. induction wrs as [|wr wrs IH]; intros n; [done|]. cbn [queue_run]. unfold queue_step. apply IH. }
      rewrite E' in E. injection E as <- <-. exists [], []. cbn. split_and!; auto. apply prefix_nil.
    + destruct (inc_reconcile P sortv wr (osub o n) st d) as [st1 ok] eqn:E1. intros E.
      apply IH in E as (tried & oks & E2 & E3 & E4 & E5 & E6).
      exists ((d, wr) :: tried), (ok :: oks). cbn [inc_run]. rewrite E1, E2. cbn [map fst snd length take zip zip_with].
      split; [done|]. split; [by apply prefix_cons|]. split; [destruct E4 as [|<-]; auto|]. destruct ok.
      * split; [by f_equal|]. cbn [succeeded app]. by constructor.
      * split.
        -- f_equal. rewrite app_length in E5. cbn [length] in E5.
           apply (f_equal (take (length q))) in E5. rewrite !take_take in E5.
           replace (Nat.min (length q) (length q + 1)%nat) with (length q) in E5 by lia. rewrite E5.
           rewrite Nat.min_comm, <- take_take, take_app. done.
        -- cbn [succeeded]. rewrite <- E6. apply Permutation_cons_append.
Qed.

(** When every attempt succeeds the requests are processed in order. *)
Lemma queue_in_order o : forall q (wrs : list (W -> delta -> option W)) n st st' oks,
  length wrs = length q -> inc_run P sortv o n st (zip q wrs) = (st', oks) -> Forall (eq true) oks ->
  queue_run P sortv o n (st, q) wrs = (st', []).
Proof.
  induction q as [|d q IH]; intros [|wr wrs] n st st' oks Hl; try done.
  - cbn. by intros [= <- _] _.
  - cbn [zip zip_with inc_run queue_run]. unfold queue_step. destruct (inc_reconcile P sortv wr (osub o n) st d) as [st1 ok] eqn:E1.
    destruct (inc_run P sortv o (S n) st1 (zip_with pair q wrs)) as [st2 oks2] eqn:E2. intros [= <- <-] F.
    apply Forall_cons in F as [<- F]. eapply IH; [by injection Hl|exact E2|done].
Qed.
End queue.
