(** Specification vocabulary for declared operators. *)
From Verif Require Import DeclModel ZSetSpec OpsSpec GatherSpec ExecSpec JsonSpec CleanSpec PipelineSpec GroupSpec ValueSpec ExprSpec StageSpec ViewSpec WriterSpec NetSpec LifeSpec.

Section spec.
Context {FF : FloatFmt} {EE : ExprEnv}.
Variable sortv : list json -> list json.
(** The controller can be expected to work: its sources have different Kinds, its stages
    stay within clean documents and never yield two objects of one name, and if its target
    is a view then it is one that an operator declares. *)
Record sensible (b : built clean) : Prop := {
  s_target : gvk_ok (b_target b);
  s_view : is_view_kind (b_target b) = true -> own_kind (b_target b) /\ clean (set_gvk [] (b_target b)) = true;
  s_kinds : NoDup (map gvk_kind (b_sources b));
  s_clean : Forall stage_clean (b_stages b);
  s_names : forall ds R, history_ok clean (b_sources b) ∅ ds -> named_history ds -> yields sortv (b_sources b) (b_stages b) (after ds) R -> one_per_name R }.
(** No two controllers have the same target. *)
Definition own_targets (bs : list (built clean)) : Prop := forall j k b b', bs !! j = Some b -> bs !! k = Some b' -> b_target b = b_target b' -> j = k.
(** The surroundings, see NetSpec.setting. *)
Definition surroundings (hash : string -> string) (lister : store -> list jobj) (o : nat -> order) : Prop :=
  (forall k, order_ok (o k)) /\ lists_all lister /\ (forall t, hash t <> EmptyString /\ utf8_ok (hash t) = true).
(** The objects [R] have one with name [i], and this is what a write of it looks like. *)
Definition asked (x : gvk) (R : list jobj) (i : oname) (m : jobj) : Prop := exists d, In d R /\ doc_id d = Some i /\ m = encapsulate x d i.1 i.2.
(** The controllers do not read what they make, directly or not. *)
Definition no_circle (bs : list (built clean)) : Prop := exists rank : nat -> nat, forall j k b b', bs !! j = Some b -> bs !! k = Some b' ->
  is_view_kind (b_target b) = true -> b_target b ∈ b_sources b' -> (rank j < rank k)%nat.
(** The stage fails for no document.  (@gather is left out.) *)
Definition stage_safe (kinds : list string) (s : stage) : Prop :=
  match st_kind s with
  | KSelect => forall d, clean d = true -> exists b, eval_doc (st_expr s) d = Some (JBool b)
  | KProject => forall d, clean d = true -> exists d', projected (st_expr s) d d'
  | KUnwind => forall d, clean d = true -> (exists l, unwound (st_expr s) d l) /\ exists v, get_raw name_path (JMap d) = Val v
  | KJoin => Forall (fun k => utf8_ok k = true) kinds
      /\ forall ds, Forall (fun d => clean d = true) ds -> exists b, eval_doc (st_expr s) (combination kinds ds) = Some (JBool b)
  | KGather => False
  end.
Definition safe (b : built clean) : Prop := Forall (stage_safe (map gvk_kind (b_sources b))) (b_stages b).
End spec.
