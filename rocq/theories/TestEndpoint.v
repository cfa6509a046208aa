(** Surroundings for the examples on the EndpointSlice operator: JSONPath with field
    names, the two other paths that it uses, and a hash that tells objects apart. *)
From Verif Require Import JsonModel ObjModel ZSetModel OpsModel ExecModel PipelineModel ValueModel PipeJsonModel StageModel ExampleModel EndpointModel.
From Verif Require Import ExprSpec ZSetSpec OpsSpec ExecSpec JsonSpec CleanSpec PipelineSpec StageSpec ExampleSpec EndpointSpec.
From Verif Require Import JsonProofs CleanProofs ExprProofs3 StageClean TestExpr TestPipe TestStage ExampleProofs4 TestExample.
#[local] Open Scope Z_scope.

(** A stand-in for the hash: six digits. *)
Definition dig (z : Z) : ascii := match z mod 10 with 0 => "0" | 1 => "1" | 2 => "2" | 3 => "3" | 4 => "4" | 5 => "5" | 6 => "6" | 7 => "7" | 8 => "8" | _ => "9" end%char.
Fixpoint sum_bytes (h : Z) (s : string) : Z := match s with EmptyString => h | String c s => sum_bytes ((h * 31 + Z.of_N (N_of_ascii c)) mod 1000003) s end.
Fixpoint digs (n : nat) (z : Z) : string := match n with O => EmptyString | S n => String (dig z) (digs n (z / 10)) end.
Definition checksum (s : string) : string := digs 6 (sum_bytes 7 s).
Lemma checksum_ok s : base36 (checksum s) = true.
Proof.
  unfold checksum. generalize (sum_bytes 7 s). generalize 6%nat. induction n as [|n IH]; intros z; [done|]. cbn [digs base36]. rewrite IH, andb_true_r. unfold dig.
  destruct (z mod 10) as [|p|p]; [reflexivity| |reflexivity]. do 4 (destruct p as [p|p|]; try reflexivity).
Qed.
#[local] Open Scope string_scope.
Definition ep_get (q : string) (d : json) : option (list json) :=
  match d with
  | JMap m =>
      if decide (q = enabled_path) then Some (found (annotation_of m))
      else if decide (q = slice_path) then Some (match mget m "EndpointSlice" with Some (JMap es) => found (service_of es) | _ => [] end) else simple_get q d
  | _ => simple_get q d
  end.
Definition ep_env : ExprEnv :=
  {| jp_get := ep_get; jp_set := path_set; parse_float := fun _ => None; fmt_g := fun _ => "1"; valid_key := fun _ => true; valid_value := fun _ => true;
     md5_base36 := checksum; now := "2025-01-01T00:00:00Z"; intn := fun _ => 0%Z; iterate := fun l => l |}.
Lemma ep_order : is_order (@iterate ep_env).
Proof. by intros l. Qed.
Lemma ep_fields : @reads_fields ep_env.
Proof.
  intros l d Hl HF. unfold get_raw. cbn [jp_get ep_env].
  assert (E : simple_get ("$" +:+ dotted l) d = Some (walk l d)).
  { unfold simple_get. change ("$" +:+ dotted l) with (String "$" (dotted l)). cbn [segs]. rewrite bool_decide_eq_false_2 by done. rewrite segs_dotted by done. done. }
  assert (ep_get ("$" +:+ dotted l) d = Some (walk l d)) as ->.
  { unfold ep_get. destruct d as [| | | | | |m]; try done. pose proof (bracket_dotted l HF) as B. change (bracket ("$" +:+ dotted l) = false) in B.
    rewrite decide_False by (intros X; rewrite X in B; vm_compute in B; done). rewrite decide_False by (intros X; rewrite X in B; vm_compute in B; done). exact E. }
  rewrite <-walk_at. by destruct (walk l d).
Qed.
Lemma ep_quoted : @reads_quoted ep_env.
Proof.
  split_and!.
  - intros d. unfold get_raw. cbn [jp_get ep_env]. unfold ep_get. rewrite decide_True by done. by destruct (annotation_of d).
  - intros d es H. unfold get_raw. cbn [jp_get ep_env]. unfold ep_get. rewrite decide_False by done. rewrite decide_True by done. rewrite H. by destruct (service_of es).
  - intros d. unfold get_raw. cbn [jp_get ep_env]. unfold ep_get. destruct d; reflexivity.
Qed.
Lemma letters_utf8 k : letters k = true -> utf8_ok k = true.
Proof.
  induction k as [|c k IH]; [done|]. cbn [letters]. intros [Hc Hk]%andb_prop. cbn [utf8_ok]. assert ((N_of_ascii c <? 128)%N = true) as ->; [|by apply IH].
  clear -Hc. destruct c as [[] [] [] [] [] [] [] []]; vm_compute in Hc |- *; done.
Qed.
Lemma put_put_at l v : forall d d', put_at l v d = Some d' -> put l v (JMap d) = Some (JMap d').
Proof.
  induction l as [|k l IH]; intros d d' H; [done|]. cbn [put]. destruct l as [|k2 l]; [by injection H as <-|].
  change (match mget d k with Some (JMap m) => m' ← put_at (k2 :: l) v m; Some (mset d k (JMap m')) | _ => None end = Some d') in H.
  destruct (mget d k) as [[| | | | | |m]|]; try done. destruct (put_at (k2 :: l) v m) as [m'|] eqn:E; [|done]. injection H as <-. by rewrite (IH m m').
Qed.
Lemma ep_sets : @sets_fields ep_env.
Proof.
  intros l v d d' HF H. unfold set_raw. cbn [jp_set ep_env]. unfold path_set. change ("$" +:+ dotted l) with (String "$" (dotted l)). cbn [segs]. rewrite bool_decide_eq_false_2 by done.
  rewrite segs_dotted by done. rewrite bool_decide_eq_true_2 by done.
  assert (forallb utf8_ok l = true) as ->. { clear H. induction HF as [|k l [_ Hk] _ IH]; [done|]. cbn [forallb]. by rewrite letters_utf8, IH. }
  cbn [andb]. by rewrite (put_put_at l v d d' H).
Qed.
Lemma ep_env_clean : @env_clean _ ep_env.
Proof.
  destruct path_clean as (C1 & C2 & C3 & C4 & _). split_and!; [|done|done|done|exact checksum_ok]. intros q d l Hd. cbn [jp_get ep_env]. unfold ep_get.
  destruct d as [| | | | | |m]; try (intros E; by apply (C1 q _ l Hd E)). case_decide; [intros [= <-]; apply found_clean, (at_clean ["metadata"; "annotations"; "dcontroller.io/endpointslice-controller-enabled"] _ Hd)|].
  case_decide; [|intros E; by apply (C1 q _ l Hd E)]. intros [= <-]. destruct (mget m "EndpointSlice") as [v|] eqn:E; [|apply List.Forall_nil]. pose proof (clean_get m _ _ Hd E) as [_ Hv].
  destruct v as [| | | | | |es]; try apply List.Forall_nil. apply found_clean, (at_clean ["metadata"; "labels"; "kubernetes.io/service-name"] _ Hv).
Qed.
