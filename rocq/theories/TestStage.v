(** Surroundings for the examples on declared pipelines: JSONPath with field names
    only, for reading and for writing. *)
From Verif Require Import JsonModel ObjModel ZSetModel OpsModel ExecModel PipelineModel ValueModel PipeJsonModel StageModel.
From Verif Require Import ExprSpec JsonSpec CleanSpec PipelineSpec StageSpec JsonProofs CleanProofs StageClean TestExpr TestPipe.
#[local] Open Scope Z_scope.

Fixpoint put (l : list string) (v d : json) : option json :=
  match l with
  | [] => Some v
  | k :: l =>
      match d with
      | JMap m => x ← put l v (match mget m k with Some x => x | None => JMap [] end); Some (JMap (mset m k x))
      | _ => None
      end
  end.
Definition path_set (q : string) (v d : json) : option json :=
  match segs EmptyString q with
  | r :: l => if bool_decide (r = "$"%string) && forallb utf8_ok l then put l v d else None
  | [] => None
  end.
#[global] Instance path_env : ExprEnv :=
  {| jp_get := simple_get; jp_set := path_set; parse_float := fun _ => None; fmt_g := fun _ => "1"%string; valid_key := fun _ => true; valid_value := fun _ => true;
     md5_base36 := fun _ => "0"%string; now := "2025-01-01T00:00:00Z"%string; intn := fun _ => 0; iterate := fun l => l |}.

Lemma walk_clean l : forall d, jclean d = true -> Forall (fun v => jclean v = true) (walk l d).
Proof.
  induction l as [|k l IH]; intros d Hd; cbn; [apply List.Forall_cons; [done|apply List.Forall_nil]|]. destruct d as [| | | | | |m]; try apply List.Forall_nil.
  destruct (mget m k) as [v|] eqn:E; [|apply List.Forall_nil]. apply IH. by apply (clean_get m k).
Qed.
Lemma put_clean l : forall v d d', forallb utf8_ok l = true -> jclean v = true -> jclean d = true -> put l v d = Some d' -> jclean d' = true.
Proof.
  induction l as [|k l IH]; intros v d d' Hl Hv Hd H; cbn in H; [by injection H as <-|]. apply andb_prop in Hl as [Hk Hl]. destruct d as [| | | | | |m]; try done.
  destruct (put l v _) as [x|] eqn:E; [|done]. injection H as <-. apply clean_set; [done|done|]. eapply IH; [exact Hl|exact Hv| |exact E].
  destruct (mget m k) as [y|] eqn:Ey; [|done]. by apply (clean_get m k).
Qed.
Lemma path_clean : env_clean.
Proof.
  split_and!; [| |done|done|done].
  - intros q d l Hd. cbn. unfold simple_get. destruct (segs _ q) as [|r s]; [done|]. case_bool_decide; [|done]. intros [= <-]. by apply walk_clean.
  - intros q v d d' _ Hv Hd. cbn. unfold path_set. destruct (segs _ q) as [|r s]; [done|]. destruct (bool_decide _ && forallb utf8_ok s) eqn:E; [|done].
    apply andb_prop in E as [_ E]. by apply put_clean.
Qed.
Lemma mget_set m k k' v : mget (mset m k v) k' = if decide (k' = k) then Some v else mget m k'.
Proof. case_decide; [subst; apply mget_set_eq|by apply mget_set_ne]. Qed.
Lemma path_names : name_paths.
Proof.
  split.
  - intros d [ns name]. unfold doc_id, get_raw, name_path. cbn [jp_get path_env]. change (simple_get "$.metadata.name" (JMap d)) with (Some (walk ["metadata"%string; "name"%string] (JMap d))).
    cbn [walk]. destruct (mget d "metadata") as [[| | | | | |m]|]; try done. destruct (match mget m "namespace" with Some (JStr s) => _ | _ => _ end); [|done]. cbn.
    destruct (mget m "name") as [[]|]; try done. case_decide; [done|]. by intros [= _ <-].
  - intros d [ns name] s d' H Hs. unfold set_raw, name_path. cbn [jp_set path_env]. change (path_set "$.metadata.name" (JStr s) (JMap d)) with (put ["metadata"%string; "name"%string] (JStr s) (JMap d)).
    unfold doc_id in H. cbn [put]. destruct (mget d "metadata") as [[| | | | | |m]|] eqn:E; try done. cbn [mbind option_bind as_object]. intros [= <-].
    unfold doc_id. rewrite !mget_set_eq. rewrite mget_set_ne by done.
    destruct (mget m "namespace") as [[]|]; try done; cbn in H |- *; (destruct (mget m "name") as [[]|]; try done); (case_decide; [done|]); injection H as <- _; by rewrite decide_False.
Qed.
Lemma put_names l v d d' : match l with [] => False | k :: _ => k <> "metadata"%string end -> put l v (JMap d) = Some (JMap d') -> doc_id d' = doc_id d.
Proof.
  destruct l as [|k l]; [done|]. intros Hk. cbn. destruct (put l v _); [|done]. cbn. intros [= <-]. apply doc_id_meta_eq. rewrite mget_set. by rewrite decide_False.
Qed.
