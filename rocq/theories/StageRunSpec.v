(** When the stages of a declared pipeline cannot fail: what may pass from one stage
    to the next, in terms of objects and expressions. *)
From Verif Require Import JsonModel ObjModel ZSetModel OpsModel ExecModel PipelineModel ValueModel PipeJsonModel StageModel JsonSpec CleanSpec PipelineSpec StageSpec.

Section spec.
Context {FF : FloatFmt} {EE : ExprEnv}.

Definition a_doc (Q : jobj -> Prop) (d : jobj) : Prop := clean d = true /\ Q d.
(** The stage succeeds on each single object with [Q] and yields objects with [Q'] only. *)
Definition stage_on (Q Q' : jobj -> Prop) (s : stage) : Prop :=
  match st_kind s with
  | KSelect => forall d, a_doc Q d -> exists b, eval_doc (st_expr s) d = Some (JBool b) /\ (b = true -> Q' d)
  | KProject => forall d, a_doc Q d -> exists d', projected (st_expr s) d d' /\ a_doc Q' d'
  | KUnwind => forall d, a_doc Q d -> (exists v, get_raw name_path (JMap d) = Val v) /\ exists l, unwound (st_expr s) d l /\ Forall (a_doc Q') l
  | KGather => exists k v, exp_list (fun e => e) (st_expr s) = Some [k; v]
      /\ (forall d, a_doc Q d -> exists x y, eval_doc k d = Some x /\ eval_doc v d = Some y /\ (is_null x = false -> is_Some (enc x)))
      /\ (forall d vs, a_doc Q d -> Forall (fun y => exists d', a_doc Q d' /\ eval_doc v d' = Some y) vs ->
            exists path r, literal_string v = Some path /\ set_raw path (JList vs) d = Some r /\ a_doc Q' r)
  | KJoin => False
  end.
Fixpoint stages_on (Q : jobj -> Prop) (p : list stage) (Q' : jobj -> Prop) : Prop :=
  match p with [] => forall d, Q d -> Q' d | s :: p => exists Qm, stage_on Q Qm s /\ stages_on Qm p Q' end.
(** The same from the sources on, whose objects have the properties [Qk]. *)
Definition runs_on (sources : list gvk) (Qk : string -> jobj -> Prop) (p : list stage) (Q' : jobj -> Prop) : Prop :=
  match p with
  | Stage KJoin e :: rest => exists Q : jobj -> Prop,
      (forall ds, Forall2 (fun s d => a_doc (Qk (gvk_kind s)) d) sources ds ->
         exists b, eval_doc e (combination (map gvk_kind sources) ds) = Some (JBool b) /\ (b = true -> Q (combination (map gvk_kind sources) ds)))
      /\ stages_on Q rest Q'
  | _ => exists s, sources = [s] /\ stages_on (Qk (gvk_kind s)) p Q'
  end.
(** The objects of a history have the properties that belong to their kinds. *)
Definition events_on (Qk : string -> jobj -> Prop) (ds : list delta) : Prop := Forall (fun d => Qk (get_kind (d_obj d)) (stripped (d_obj d))) ds.
End spec.
