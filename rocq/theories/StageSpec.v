(** What a declared pipeline means, on plain lists of objects: no deltas, no
    Z-sets, no incremental evaluation. *)
From Verif Require Import JsonModel ObjModel ZSetModel OpsModel ExecModel PipelineModel ValueModel PipeJsonModel StageModel JsonSpec CleanSpec PipelineSpec.

Section spec.
Context {FF : FloatFmt} {EE : ExprEnv}.

(** @select keeps the objects for which the expression is true; it must be true
    or false for each of them. *)
Definition holds (e : expr) (d : jobj) : bool := match eval_doc e d with Some (JBool true) => true | _ => false end.
Definition selects (e : expr) (l l' : list jobj) : Prop :=
  (forall d, In d l -> exists b, eval_doc e d = Some (JBool b)) /\ l' = List.filter (holds e) l.
(** @project turns each object into the object that the expression yields, or
    into the objects of the list that it yields, merged. *)
Definition projected (e : expr) (d d' : jobj) : Prop :=
  eval_doc e d = Some (JMap d')
  \/ exists us, eval_doc e d = Some (JList (map JMap us)) /\ merge_objects JNull us = Some (JMap d').
Definition projects (e : expr) (l l' : list jobj) : Prop := Forall2 (projected e) l l'.
(** @unwind turns an object into one object for each element of the list that
    the expression yields: the element is stored under the expression's path and
    its index is appended to the name.  Null counts as the empty list. *)
Definition unwound (e : expr) (d : jobj) (l' : list jobj) : Prop :=
  exists path vs, literal_string e = Some path
    /\ (eval_doc e d = Some (JList vs) \/ eval_doc e d = Some JNull /\ vs = [])
    /\ length l' = length vs
    /\ forall i v d', vs !! i = Some v -> l' !! i = Some d' -> exists d1 name,
         set_raw path v d = Some d1 /\ get_raw name_path (JMap d1) = Val name
         /\ set_raw name_path (JStr (format_name name (Z.of_nat i))) d1 = Some d'.
Definition unwinds (e : expr) (l l' : list jobj) : Prop :=
  exists ls, Forall2 (unwound e) l ls /\ l' = concat ls.
(** @gather [k, v]: the objects whose key expression has the same JSON value form a
    group; objects for which the key or the value is null do not count.  Each
    group becomes one of its objects, in which the path [v] holds the list of
    all values of the group. *)
Definition gather_key (k v : expr) (d : jobj) : option string :=
  match eval_doc k d, eval_doc v d with
  | Some kv, Some vv => if is_null kv || is_null vv then None else enc kv
  | _, _ => None
  end.
Definition gather_values (k v : expr) (j : string) (l : list jobj) : list json :=
  flat_map (fun d => if decide (gather_key k v d = Some j) then match eval_doc v d with Some vv => [vv] | None => [] end else []) l.
Definition gathers (sortv : list json -> list json) (k v : expr) (l l' : list jobj) : Prop :=
  exists groups : list (string * jobj), l' = map snd groups /\ NoDup (map fst groups)
    /\ (forall j, In j (map fst groups) <-> exists d, In d l /\ gather_key k v d = Some j)
    /\ forall j r, In (j, r) groups -> exists path d vs, literal_string v = Some path
         /\ In d l /\ gather_key k v d = Some j /\ Permutation vs (gather_values k v j l)
         /\ set_raw path (JList (match vs with _ :: _ :: _ => sortv vs | _ => vs end)) d = Some r.

(** One stage, then a list of stages.  The order of a list of objects has no
    meaning. *)
Definition stage_means (sortv : list json -> list json) (s : stage) (l l' : list jobj) : Prop :=
  match st_kind s with
  | KSelect => selects (st_expr s) l l'
  | KProject => projects (st_expr s) l l'
  | KUnwind => unwinds (st_expr s) l l'
  | KGather => exists k v, exp_list (fun e => e) (st_expr s) = Some [k; v] /\ gathers sortv k v l l'
  | KJoin => False
  end.
Inductive stages_mean (sortv : list json -> list json) : list stage -> list jobj -> list jobj -> Prop :=
  | means_nil l l' : Permutation l l' -> stages_mean sortv [] l l'
  | means_cons s p l l1 l2 l' : Permutation l l1 -> stage_means sortv s l1 l2 -> stages_mean sortv p l2 l' -> stages_mean sortv (s :: p) l l'.

(** All ways to pick one object from each list. *)
Fixpoint picks {A} (ls : list (list A)) : list (list A) :=
  match ls with [] => [[]] | l :: ls => flat_map (fun d => map (cons d) (picks ls)) l end.
(** @join sees each combination of source objects as one object with a field for
    each Kind. *)
Definition combination (kinds : list string) (ds : list jobj) : jobj :=
  foldl (fun m e => mset m e.1 (JMap e.2)) [] (combine kinds ds).
(** What the pipeline yields for the source objects [w]. *)
Definition yields (sortv : list json -> list json) (sources : list gvk) (p : list stage) (w : world) (R : list jobj) : Prop :=
  match p with
  | Stage KJoin e :: rest =>
      exists l, selects e (map (combination (map gvk_kind sources)) (picks (map (fun s => of_kind (gvk_kind s) w) sources))) l
        /\ stages_mean sortv rest l R
  | _ => exists s, sources = [s] /\ stages_mean sortv p (of_kind (gvk_kind s) w) R
  end.

(** At most one object for each name, all with proper names. *)
Definition one_per_name (R : list jobj) : Prop :=
  NoDup (map doc_id R) /\ forall d, In d R -> exists i, doc_id d = Some i /\ plain i.
(** The stage yields clean documents for clean documents. *)
Definition stage_clean (s : stage) : Prop :=
  match st_kind s with
  | KProject => forall d d', clean d = true -> projected (st_expr s) d d' -> clean d' = true
  | KUnwind => forall d l d', clean d = true -> unwound (st_expr s) d l -> In d' l -> clean d' = true
  | _ => True
  end.

(** A sufficient condition: no arithmetic (which may yield floats that read like
    integers), clean literals. *)
Definition tidy_ops : list string :=
  ["@bool"%string; "@int"%string; "@string"%string; "@list"%string; "@dict"%string; "@noop"%string; "@cond"%string; "@definedOr"%string; "@switch"%string;
   "@and"%string; "@or"%string; "@filter"%string; "@any"%string; "@none"%string; "@all"%string; "@map"%string;
   "@isnil"%string; "@exists"%string; "@has"%string; "@not"%string; "@eq"%string; "@rnd"%string; "@lt"%string; "@lte"%string; "@gt"%string; "@gte"%string;
   "@selector"%string; "@len"%string; "@in"%string; "@concat"%string; "@range"%string; "@hash"%string].
Fixpoint tidy (e : expr) : bool :=
  match e with
  | Expr op arg l =>
      bool_decide (op ∈ tidy_ops)
      && match arg with Some a => tidy a | None => true end
      && match l with
         | LVal v => jclean v
         | LList es => (fix go es := match es with [] => true | e :: es => tidy e && go es end) es
         | LMap m => (fix go (m : list (string * expr)) := match m with [] => true | (k, e) :: m => utf8_ok k && tidy e && go m end) m
         end
  end.
Fixpoint base36 (s : string) : bool :=
  match s with EmptyString => true | String c s => let n := N_of_ascii c in ((48 <=? n) && (n <=? 57) || (97 <=? n) && (n <=? 122))%N && base36 s end.
(** What the surroundings must do: JSONPath returns parts of its input and keeps
    documents clean, texts are UTF-8, hashes are digits and small letters. *)
Definition env_clean : Prop :=
  (forall q d l, jclean d = true -> jp_get q d = Some l -> Forall (fun v => jclean v = true) l)
  /\ (forall q v d d', utf8_ok q = true -> jclean v = true -> jclean d = true -> jp_set q v d = Some d' -> jclean d' = true)
  /\ utf8_ok now = true /\ (forall f, utf8_ok (fmt_g f) = true) /\ forall s, base36 (md5_base36 s) = true.
Definition tidy_stage (s : stage) : bool := match st_kind s with KProject | KUnwind => tidy (st_expr s) | _ => true end.

(** JSONPath treats the name of an object as the code expects. *)
Definition name_paths : Prop :=
  (forall d i, doc_id d = Some i -> get_raw name_path (JMap d) = Val (JStr i.2))
  /\ (forall d i s d', doc_id d = Some i -> s <> EmptyString -> set_raw name_path (JStr s) d = Some d' -> doc_id d' = Some (i.1, s)).
(** The stage does not interfere with names: projections keep them, and the paths
    that @unwind and @gather write to lie elsewhere. *)
Definition stage_keeps_names (s : stage) : Prop :=
  match st_kind s with
  | KSelect => True
  | KProject => forall d d' i, doc_id d = Some i -> projected (st_expr s) d d' -> doc_id d' = Some i
  | KUnwind => forall path d v d', literal_string (st_expr s) = Some path -> set_raw path v d = Some d' -> doc_id d' = doc_id d
  | KGather => forall k e path d v d', exp_list (fun e => e) (st_expr s) = Some [k; e] -> literal_string e = Some path -> set_raw path v d = Some d' -> doc_id d' = doc_id d
  | KJoin => False
  end.
End spec.
