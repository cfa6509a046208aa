(** Specification vocabulary for controllers that work together. *)
From Verif Require Import NetModel ZSetSpec OpsSpec GatherSpec ExecSpec JsonSpec CleanSpec PipelineSpec GroupSpec ValueSpec ViewSpec WriterSpec.

(** A controller as the user declares it. *)
Record config {FF : FloatFmt} := Config {
  c_target : gvk; c_sources : list gvk;
  c_join : option (@join_evaluator (json_docs_on clean)); c_stages : list (@op (json_docs_on clean)) }.

Section spec.
Context {FF : FloatFmt}.
#[local] Hint Extern 0 Docs => exact (json_docs_on clean) : typeclass_instances.
Variable sortv : list json -> list json.
Notation node := (node clean).
Notation net := (net clean).

(** Its pipeline can be built, its sources have different Kinds, and if the target is a
    view then it is one that an operator declares. *)
Definition config_ok (c : config) (p : pipe clean) : Prop :=
  gvk_ok (c_target c) /\ c_sources c <> [] /\ NoDup (map gvk_kind (c_sources c))
  /\ forallb (user_op (DD := json_docs_on clean)) (c_stages c) = true /\ Forall ExecSpec.op_ok (c_stages c)
  /\ (forall jev, c_join c = Some jev -> jev_ok jev)
  /\ pipe_new clean (c_target c) (c_sources c) (c_join c) (c_stages c) = Some p
  /\ (is_view_kind (c_target c) = true -> own_kind (c_target c) /\ clean (set_gvk [] (c_target c)) = true).
(** The query of the controller: the result [B] for source objects [w]. *)
Definition query (c : config) (w : world) (B : @zset (json_docs_on clean)) : Prop :=
  exists g acc, pipeline_graph (map gvk_kind (c_sources c)) (c_join c) (c_stages c) = Some g
    /\ inputs_of clean w (map gvk_kind (c_sources c)) acc /\ exec_scratch sortv g acc B.
(** No view is made by two controllers. *)
Definition apart_targets (cs : list config) : Prop := forall j k c c', cs !! j = Some c -> cs !! k = Some c' ->
  is_view_kind (c_target c) = true -> c_target c = c_target c' -> j = k.

(** What is assumed of the surroundings: the orders in which maps are iterated are
    permutations, the lists of a cache are complete, the hash of the view cache gives a
    text that is not empty; the pipelines are those of the controllers. *)
Definition setting (hash : string -> string) (lister : store -> list jobj) (o : nat -> order) (cs : list config) (ps : list (pipe clean)) : Prop :=
  (forall k, order_ok (o k)) /\ lists_all lister /\ (forall t, hash t <> EmptyString /\ utf8_ok (hash t) = true) /\ Forall2 config_ok cs ps /\ apart_targets cs.

(** An object that others write. *)
Definition foreign_ok (m : jobj) : Prop :=
  owf m /\ clean (stripped m) = true /\ plain (obj_id m) /\ is_Some (doc_id (stripped m)).
Definition act_fit (a : nact) : Prop := match a with NPut m => foreign_ok m | NDrop _ ns name => plain (ns, name) | _ => True end.

(** Every controller runs, and nothing waits. *)
Definition quiet (s : net) : Prop := forall n, n ∈ t_nodes clean s -> n_on clean n = true /\ n_pending clean n = [] /\ forall x, n_queue clean n x = [].
(** The current objects of some kinds. *)
Definition now (s : net) (sources : list gvk) (w : world) : Prop :=
  forall x i m, w !! (x, i) = Some m <-> x ∈ sources /\ stripped <$> held_plain (objects_of clean s x) i = Some m.
(** The results that a controller has had hold at most one document for each name. *)
Definition tidy_results (c : config) (n : node) : Prop :=
  forall pre post B, n_done clean n = pre ++ post -> query c (after pre) B -> functional clean B.
Definition tidy (cs : list config) (s : net) : Prop := forall k c n, cs !! k = Some c -> t_nodes clean s !! k = Some n -> tidy_results c n.
(** The object [m'] in a view is what a write of [m] asks for: the same but for the UID,
    and for labels and annotations that it had before. *)
Record reflects (x : gvk) (m m' : jobj) : Prop := {
  r_id : source_id m' = (x, obj_id m);
  r_fields : forall f, f ∉ ["apiVersion"; "kind"; "metadata"]%string -> mget m' f = mget m f;
  r_tags : forall f k v, f ∈ ["labels"; "annotations"]%string -> tag m f k = Some v -> tag m' f k = Some v }.
(** The objects of a kind, by name, as controllers see them. *)
Definition content (s : net) (x : gvk) : contents := fun i => stripped <$> held_plain (objects_of clean s x) i.
(** Whatever happened to its sources, the result of the controller holds at most one
    document for each name. *)
Definition unique_names (c : config) : Prop := forall ds B, history_ok clean (c_sources c) ∅ ds -> named_history ds -> query c (after ds) B -> functional clean B.
(** One source, no join, and stages that keep the names. *)
Definition simple (c : config) : Prop := (exists x, c_sources c = [x]) /\ c_join c = None /\ Forall (keeps_names clean) (c_stages c).
(** No stage fails. *)
Definition never_fails (c : config) : Prop := Forall op_total (c_stages c) /\ forall jev, c_join c = Some jev -> jev_total jev.
(** No controller reads, directly or not, what it makes. *)
Definition acyclic (cs : list config) : Prop := exists rank : nat -> nat, forall j k c c', cs !! j = Some c -> cs !! k = Some c' ->
  is_view_kind (c_target c) = true -> c_target c ∈ c_sources c' -> (rank j < rank k)%nat.
(** Every controller runs. *)
Definition running (s : net) : Prop := forall n, n ∈ t_nodes clean s -> n_on clean n = true.
(** A step of a controller that runs. *)
Definition own_step (a : nact) : Prop := match a with NWork _ _ | NWrite _ => True | _ => False end.
(** In whatever order the controllers take their steps, finitely many steps lead to a
    state in which nothing waits. *)
Inductive settles (step : net -> nact -> option net) (s : net) : Prop :=
  Settles : (quiet s \/ exists a s', own_step a /\ step s a = Some s') ->
    (forall a s', own_step a -> step s a = Some s' -> settles step s') -> settles step s.
(** No metadata but the names. *)
Definition bare (m : jobj) : Prop := forall f, f <> "name"%string -> f <> "namespace"%string -> meta m f = None.
Definition bare_written (n : node) : Prop := Forall (fun d => bare (d_obj d)) (n_written clean n).
End spec.
