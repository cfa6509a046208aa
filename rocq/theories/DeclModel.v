(** Model of the controllers that an operator makes from its specification: the kinds of
    the resources (OperatorModel, pkg/reconciler/resource.go), the pipelines (StageModel)
    and the network that the controllers form (NetModel, LifeModel). *)
From Verif Require Export OperatorModel.
From Verif Require Export StageModel.
From Verif Require Export LifeModel.

(** controller_types.go:13-26 Controller; sources are watched and the target is an
    updater *)
Record declared := Declared { dc_name : string; dc_sources : list rsrc; dc_stages : list stage; dc_target : option rsrc }.
(** A controller that has been made: its target, its sources, its stages and its pipeline *)
Record built {FF : FloatFmt} {P : jobj -> bool} := Built { b_target : gvk; b_sources : list gvk; b_stages : list stage; b_pipe : pipe P }.
Arguments built {FF} P.

Section decl.
Context {FF : FloatFmt} {EE : ExprEnv}.
Variable P : jobj -> bool.
(** meta.RESTMapper.KindFor, for native resources *)
Variable mapper : string -> string -> option gvk.

(** declarative.go:55-150 NewDeclarative; [None] is an error.  The runtime controllers and
    watches can always be created here. *)
Definition build (op : string) (c : declared) : option (built P) :=
  if decide (dc_name c = EmptyString) then None
  else match dc_sources c with
       | [] => None
       | _ =>
           t ← dc_target c;
           x ← res_gvk mapper op t;
           xs ← mapM (res_gvk mapper op) (dc_sources c);
           p ← declare P x xs (dc_stages c);
           Some (Built _ P x xs (dc_stages c) p)
       end.
(** operator.go:110-124 AddSpec: errors are reported and the other controllers are made. *)
Definition build_all (op : string) (cs : list declared) : list (built P) := omap (build op) cs.
End decl.
