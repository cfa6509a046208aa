(** Model of the registry of operators: pkg/kubernetes/controllers/operator.go,
    pkg/operator/operator.go, the construction of controllers in
    pkg/controller/declarative.go and the kinds of sources and targets in
    pkg/reconciler/resource.go.

    Simplifications:
    - The manager and the controllers of an operator run as long as the context
      with which the operator was started; a context is a number.
    - Reconcile is called by one worker of controller-runtime, so its calls do
      not overlap; what overlaps with Start is at the end of the file.
    - Native controllers, status updates and the error channels are left out. *)
From Verif Require Export RegistryModel.

(** pkg/api/operator/v1alpha1/controller_types.go:28-36 Resource; [None] is a nil
    pointer *)
Record rsrc := RSrc { s_group : option string; s_version : option string; s_kind : string }.
(** controller_types.go Controller.  [c_target] is [None] for the empty target;
    [c_rest] stands for the pipeline and the remaining fields. *)
Record cspec := CSpec { c_name : string; c_sources : list rsrc; c_target : option rsrc; c_rest : string }.

Section operator.
(** meta.RESTMapper.KindFor, for native resources *)
Variable mapper : string -> string -> option gvk.
(** Whether the runtime controllers, the watches and the pipeline of a controller
    can be created (declarative.go:88-149). *)
Variable builds : cspec -> bool.
Variable servable : gvk -> bool.

(** resource.go:52-90 GetGVK; [None] is an error *)
Definition res_gvk (op : string) (r : rsrc) : option gvk :=
  if decide (s_kind r = EmptyString) then None
  else
    let by_group_kind g := if is_view_group g then Some (GVK g view_version (s_kind r)) else mapper g (s_kind r) in
    match s_group r with
    | None => by_group_kind (view_group op)
    | Some g =>
        if decide (g = view_group op) then by_group_kind g
        else match s_version r with
             | None => by_group_kind g
             | Some v => Some (GVK g v (s_kind r))
             end
    end.

(** declarative.go:22-33 DeclarativeController: which of the fields are set, and
    whether there was a critical error *)
Record ctrl := Ctrl { k_spec : cspec; k_name : string; k_target : option rsrc; k_sources : list rsrc; k_ok : bool }.
(** declarative.go:38-151 NewDeclarative *)
Definition new_declarative (op : string) (c : cspec) : ctrl :=
  if decide (c_name c = EmptyString) then Ctrl c "" None [] false
  else match c_sources c, c_target c with
       | [], _ => Ctrl c (c_name c) None [] false
       | _, None => Ctrl c (c_name c) None [] false
       | _, Some t =>
           match res_gvk op t with
           | None => Ctrl c (c_name c) (Some t) [] false
           | Some _ =>
               Ctrl c (c_name c) (Some t) (c_sources c)
                 (forallb (fun s => match res_gvk op s with Some _ => true | None => false end) (c_sources c) && builds c)
           end
       end.
(** declarative.go:157-173 GetGVKs *)
Definition ctrl_gvks (op : string) (k : ctrl) : list gvk :=
  match k_target k with Some t => option_list (res_gvk op t) | None => [] end ++ omap (res_gvk op) (k_sources k).

(** operator.go:59-66 Operator *)
Record oper := Oper { o_name : string; o_ctrls : list ctrl }.
(** operator.go:269-288 GetGVKs: the kinds of the operator's own group, once each.
    [dedup] keeps the first occurrences. *)
Fixpoint dedup (seen : list gvk) (l : list gvk) : list gvk :=
  match l with
  | [] => []
  | x :: l => if decide (x ∈ seen) then dedup seen l else x :: dedup (x :: seen) l
  end.
Definition oper_gvks (o : oper) : list gvk :=
  dedup [] (of_group (view_group (o_name o)) (concat (map (ctrl_gvks (o_name o)) (o_ctrls o)))).

(** controllers/operator.go:37-42 opEntry; [e_cancel] is the context that the
    stored function cancels, [None] a nil function *)
Record entry := Entry { e_op : oper; e_cancel : option nat }.
(** controllers/operator.go:44-69 OpController.  [live] holds the operators that
    run, by their contexts. *)
Record opctl := OpCtl {
  api : apiserver; api_set : bool;
  ops : gmap string entry;
  live : gmap nat oper; next : nat;
  started : bool }.
(** controllers/operator.go:76-132 NewOpController *)
Definition opctl_new : opctl := OpCtl api_new false ∅ ∅ 0 false.
(** controllers/operator.go:157-164 SetAPIServer: the operators get the API server
    but their kinds are not registered. *)
Definition set_api (s : opctl) : opctl := OpCtl (api s) true (ops s) (live s) (next s) (started s).
(** controllers/operator.go:172-180 GetOperator *)
Definition get_oper (s : opctl) (n : string) : option oper := e_op <$> ops s !! n.

(** controllers/operator.go:247-278 startOp; the entry is the one stored under the
    operator's name. *)
Definition start_op (s : opctl) (o : oper) : opctl :=
  OpCtl (api s) (api_set s) (<[o_name o := Entry o (Some (next s))]> (ops s)) (<[next s := o]> (live s)) (S (next s)) (started s).
(** controllers/operator.go:183-194 AddOperator *)
Definition add_operator (s : opctl) (o : oper) : opctl :=
  let s := OpCtl (api s) (api_set s) (<[o_name o := Entry o None]> (ops s)) (live s) (next s) (started s) in
  if started s then start_op s o else s.
(** operator.go:110-124 AddSpec and 244-255 RegisterGVKs.  All kinds are of one
    group, so the order of the groups is no choice.  An error is only logged, a
    panic is passed on. *)
Definition add_spec (s : opctl) (n : string) (cs : list cspec) : opctl * oper * bool :=
  let o := Oper n (map (new_declarative n) cs) in
  if api_set s then
    let '(a, out) := register_gvks servable (groups_of (oper_gvks o)) (api s) (oper_gvks o) in
    (OpCtl a true (ops s) (live s) (next s) (started s), o, negb (bool_decide (out = Panicked)))
  else (s, o, true).
(** controllers/operator.go:198-216 AddOperatorFromSpec; [created] says whether
    operator.New could create the manager. *)
Definition add_from_spec (created : bool) (s : opctl) (n : string) (cs : list cspec) : opctl * outcome :=
  if created then
    let '(s, o, ok) := add_spec s n cs in
    if ok then (add_operator s o, Done) else (s, Panicked)
  else (s, Failed).
(** controllers/operator.go:231-244 DeleteOperator and operator.go:258-266
    UnregisterGVKs *)
Definition delete_operator (s : opctl) (n : string) : opctl * outcome :=
  match ops s !! n with
  | None => (s, Done)
  | Some e =>
      let a := if api_set s then unregister_gvks (groups_of (oper_gvks (e_op e))) (api s) else api s in
      match e_cancel e with
      | None => (OpCtl a (api_set s) (delete n (ops s)) (live s) (next s) (started s), Panicked)
      | Some i => (OpCtl a (api_set s) (delete n (ops s)) (delete i (live s)) (next s) (started s), Done)
      end
  end.
(** controllers/operator.go:219-228 UpsertOperator *)
Definition upsert_operator (created : bool) (s : opctl) (n : string) (cs : list cspec) : opctl * outcome :=
  match get_oper s n with
  | None => add_from_spec created s n cs
  | Some _ =>
      let '(s, out) := delete_operator s n in
      match out with Done => add_from_spec created s n cs | _ => (s, out) end
  end.

(** What the API server answers for the Operator object. *)
Inductive found := FSpec (cs : list cspec) | FMissing | FError.
(** controllers/operator.go:281-306 Reconcile *)
Definition reconcile_op (s : opctl) (n : string) (f : found) (created : bool) : opctl * outcome :=
  match f with
  | FMissing => delete_operator s n
  | FError => (s, Failed)
  | FSpec cs => upsert_operator created s n cs
  end.
(** controllers/operator.go:311-338 Start: starts the operators that were added
    before, in map order. *)
Definition start_ctl (order : list string) (s : opctl) : opctl :=
  foldl (fun s n => match ops s !! n with Some e => start_op s (e_op e) | None => s end)
    (OpCtl (api s) (api_set s) (ops s) (live s) (next s) true) order.

Inductive ocall :=
  | Reconcile (n : string) (f : found) (created : bool)
  | AddFromSpec (n : string) (cs : list cspec)
  | StartAll (order : list string)
  | SetAPI.
Definition ostep (s : opctl) (c : ocall) : opctl * outcome :=
  match c with
  | Reconcile n f created => reconcile_op s n f created
  | AddFromSpec n cs => add_from_spec true s n cs
  | StartAll order => (start_ctl order s, Done)
  | SetAPI => (set_api s, Done)
  end.
Fixpoint orun (s : opctl) (cs : list ocall) : opctl * list outcome :=
  match cs with
  | [] => (s, [])
  | c :: cs => let '(s, o) := ostep s c in let '(s, os) := orun s cs in (s, o :: os)
  end.
End operator.

(** *** Start and AddOperator at the same time

    AddOperator stores the entry under the mutex and then reads [started] without
    it; Start marks itself started and collects the entries under the mutex and
    then starts them.  One operator is added here, by one goroutine. *)
#[local] Open Scope nat_scope.
Record racer := Racer {
  stored_e : bool; (* the entry is in the map *)
  flag : bool; (* c.started *)
  collected : bool; (* Start has collected the entry *)
  add_pc : nat; (* 0 before storing, 1 before reading [started], 2 before startOp, 3 done *)
  start_pc : nat; (* 0 before collecting, 1 before starting, 2 done *)
  runs : option nat; (* the context of the one manager that runs *)
  cancels : option nat; (* the context in the entry *)
  errors : nat; (* second starts of the manager, which controller-runtime refuses (recalled) *)
  fresh_ctx : nat }.
Definition racer0 : racer := Racer false false false 0 0 None None 0 0.
(** startOp: a new context is stored in the entry; the manager starts once. *)
Definition race_start (r : racer) : racer :=
  Racer (stored_e r) (flag r) (collected r) (add_pc r) (start_pc r)
    (match runs r with None => Some (fresh_ctx r) | x => x end) (Some (fresh_ctx r))
    (match runs r with None => errors r | Some _ => S (errors r) end) (S (fresh_ctx r)).
Inductive side := Adder | Starter.
Definition race_step (r : racer) (w : side) : racer :=
  match w with
  | Adder =>
      match add_pc r with
      | 0 => Racer true (flag r) (collected r) 1 (start_pc r) (runs r) (cancels r) (errors r) (fresh_ctx r)
      | 1 => Racer (stored_e r) (flag r) (collected r) (if flag r then 2 else 3) (start_pc r) (runs r) (cancels r) (errors r) (fresh_ctx r)
      | 2 => let r := race_start r in Racer (stored_e r) (flag r) (collected r) 3 (start_pc r) (runs r) (cancels r) (errors r) (fresh_ctx r)
      | _ => r
      end
  | Starter =>
      match start_pc r with
      | 0 => Racer (stored_e r) true (stored_e r) (add_pc r) 1 (runs r) (cancels r) (errors r) (fresh_ctx r)
      | 1 => let r := if collected r then race_start r else r in
             Racer (stored_e r) (flag r) (collected r) (add_pc r) 2 (runs r) (cancels r) (errors r) (fresh_ctx r)
      | _ => r
      end
  end.
Definition race (ws : list side) : racer := foldl race_step racer0 ws.
(** DeleteOperator afterwards: what still runs. *)
Definition after_delete (r : racer) : option nat := if decide (runs r = cancels r) then None else runs r.
