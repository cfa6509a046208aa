(** Surroundings and objects for the examples on shipped operators: JSONPath with
    field names, and the two other paths that they use. *)
From Verif Require Import JsonModel ObjModel ZSetModel OpsModel ExecModel PipelineModel ValueModel PipeJsonModel StageModel ExampleModel.
From Verif Require Import ExprSpec ZSetSpec OpsSpec ExecSpec JsonSpec CleanSpec PipelineSpec StageSpec ExampleSpec.
From Verif Require Import JsonProofs CleanProofs ZSetProofs2 PipeProofs2 ExprProofs3 StageClean TestExpr TestPipe TestStage ExampleProofs4.
#[local] Open Scope string_scope.

Definition found (v : json) : list json := match v with JNull => [] | _ => [v] end.
Definition ex_get (q : string) (d : json) : option (list json) :=
  match d with
  | JMap m =>
      if decide (q = app_path) then Some (found (at_ ["metadata"; "labels"; "app"] m))
      else if decide (q = ready_path) then Some (found (ready_of m)) else simple_get q d
  | _ => simple_get q d
  end.
Definition ex_env : ExprEnv :=
  {| jp_get := ex_get; jp_set := path_set; parse_float := fun _ => None; fmt_g := fun _ => "1"; valid_key := fun _ => true; valid_value := fun _ => true;
     md5_base36 := fun _ => "0"; now := "2025-01-01T00:00:00Z"; intn := fun _ => 0%Z; iterate := fun l => l |}.
Lemma ex_order : is_order (@iterate ex_env).
Proof. by intros l. Qed.

Lemma segs_word k : letters k = true -> forall cur rest, segs cur (k +:+ rest) = segs (cur +:+ k) rest.
Proof.
  induction k as [|c k IH]; intros H cur rest; [by rewrite append_nil|]. cbn [letters] in H. apply andb_prop in H as [Hc Hk].
  change (String c k +:+ rest) with (String c (k +:+ rest)). cbn [segs]. rewrite bool_decide_eq_false_2 by (intros ->; vm_compute in Hc; done).
  rewrite IH by done. f_equal. change (String c k) with (String c EmptyString +:+ k). by rewrite app_assoc_s.
Qed.
Lemma segs_dotted l : Forall word l -> forall cur, segs cur (dotted l) = cur :: l.
Proof.
  induction 1 as [|k l [_ Hk] _ IH]; intros cur; [done|]. cbn [dotted]. change (segs cur (String "." (k +:+ dotted l)) = cur :: k :: l). cbn [segs]. rewrite bool_decide_eq_true_2 by done.
  f_equal. rewrite segs_word by done. apply IH.
Qed.
Lemma walk_at l d : match walk l d with [] => Val JNull | v :: _ => Val v end = Val (at_path l d).
Proof. revert d. induction l as [|k l IH]; intros d; [done|]. cbn [walk at_path]. destruct d as [| | | | | |m]; try done. destruct (mget m k); [apply IH|done]. Qed.
Fixpoint bracket (s : string) : bool := match s with EmptyString => false | String c s => bool_decide (c = "["%char) || bracket s end.
Lemma bracket_word k rest : letters k = true -> bracket (k +:+ rest) = bracket rest.
Proof.
  induction k as [|c k IH]; intros H; [done|]. cbn [letters] in H. apply andb_prop in H as [Hc Hk]. change (bracket (String c (k +:+ rest)) = bracket rest). cbn [bracket].
  rewrite bool_decide_eq_false_2 by (intros ->; vm_compute in Hc; done). by apply IH.
Qed.
Lemma bracket_dotted l : Forall word l -> bracket (dotted l) = false.
Proof. induction 1 as [|k l [_ Hk] _ IH]; [done|]. cbn [dotted]. change (bracket (k +:+ dotted l) = false). by rewrite bracket_word. Qed.
Lemma ex_fields : @reads_fields ex_env.
Proof.
  intros l d Hl HF. unfold get_raw. cbn [jp_get ex_env].
  assert (E : simple_get ("$" +:+ dotted l) d = Some (walk l d)).
  { unfold simple_get. change ("$" +:+ dotted l) with (String "$" (dotted l)). cbn [segs]. rewrite bool_decide_eq_false_2 by done. rewrite segs_dotted by done. done. }
  assert (ex_get ("$" +:+ dotted l) d = Some (walk l d)) as ->.
  { unfold ex_get. destruct d as [| | | | | |m]; try done. pose proof (bracket_dotted l HF) as B. change (bracket ("$" +:+ dotted l) = false) in B.
    rewrite decide_False by (intros X; rewrite X in B; vm_compute in B; done). rewrite decide_False by (intros X; rewrite X in B; vm_compute in B; done). exact E. }
  rewrite <-walk_at. by destruct (walk l d).
Qed.
Lemma ex_pods : @reads_pods ex_env.
Proof.
  split_and!.
  - intros d. unfold get_raw. cbn [jp_get ex_env]. unfold ex_get. rewrite decide_True by done. by destruct (at_ ["metadata"; "labels"; "app"] d).
  - intros d. unfold get_raw. cbn [jp_get ex_env]. unfold ex_get. rewrite decide_False by done. rewrite decide_True by done. by destruct (ready_of d).
  - intros v d. reflexivity.
Qed.
Lemma ready_in_clean cs : Forall (fun v => jclean v = true) cs -> jclean (ready_in cs) = true.
Proof.
  induction 1 as [|c cs Hc _ IH]; [done|]. cbn [ready_in]. destruct c as [| | | | | |c]; try done. destruct (mget c "type") as [[]|]; try done. destruct (mget c "status") as [s'|] eqn:E; [|done].
  destruct (String.eqb _ _); [|done]. by apply (clean_get c "status").
Qed.
Lemma ready_clean d : jclean (JMap d) = true -> jclean (ready_of d) = true.
Proof.
  intros H. unfold ready_of. pose proof (at_clean ["status"; "conditions"] _ H) as C. destruct (at_ ["status"; "conditions"] d) as [| | | | |cs|]; try done. apply ready_in_clean.
  clear -C. induction cs as [|c cs IH]; [apply List.Forall_nil|]. cbn in C. apply andb_prop in C as [C1 C2]. apply List.Forall_cons; [done|by apply IH].
Qed.
Lemma found_clean v : jclean v = true -> Forall (fun v => jclean v = true) (found v).
Proof. intros H. destruct v; [apply List.Forall_nil|..]; (apply List.Forall_cons; [done|apply List.Forall_nil]). Qed.
Lemma ex_clean : @env_clean _ ex_env.
Proof.
  destruct path_clean as (C1 & C2 & C3 & C4). split; [|done]. intros q d l Hd. cbn [jp_get ex_env]. unfold ex_get.
  destruct d as [| | | | | |m]; try (intros E; by apply (C1 q _ l Hd E)). case_decide; [intros [= <-]; apply found_clean, (at_clean ["metadata"; "labels"; "app"] _ Hd)|].
  case_decide; [intros [= <-]; by apply found_clean, ready_clean|]. intros E. by apply (C1 q _ l Hd E).
Qed.
