(** Properties C38 (predicates) and C46 (what a source selects). *)
From Verif Require Import PredicateModel ReconcilerModel ZSetSpec OpsSpec GatherSpec ExecSpec JsonSpec CleanSpec PipelineSpec PredicateSpec.
From Verif Require Import PredicateProofs TestPipe.

(** ** C38 *)

(** A predicate tree written for a formula accepts exactly the events of which
    the formula is true. *)
Theorem C38_formula : forall p F, denotes p F -> exists f, to_predicate p = Some f /\ forall e, f e = true <-> holds e F.
Proof. exact formula_spec. Qed.
Print Assumptions C38_formula.
(** All other trees are rejected. *)
Theorem C38_rejected : forall p, (exists f, to_predicate p = Some f) <-> exists F, denotes p F.
Proof. exact formula_only. Qed.
Print Assumptions C38_rejected.
(** Marshalling and unmarshalling a tree gives the same tree. *)
Theorem C38_round_trip : forall p, plain_pred p -> exists v, marshal p = Some v /\ unmarshal v = Some p.
Proof. exact marshal_round. Qed.
Print Assumptions C38_round_trip.

Definition basic (s : string) : PredicateModel.pred := Pred (Some s) None.
Definition ex_pred : PredicateModel.pred :=
  Pred None (Some [("Or"%string, [basic "GenerationChanged"; Pred None (Some [("And"%string, [basic "LabelChanged"; Pred None (Some [("Not"%string, [basic "AnnotationChanged"])])])])])]).
Definition gen (n : Z) (l : string) : jobj :=
  [("metadata"%string, JMap [("generation"%string, JInt n); ("labels"%string, JMap [("app"%string, JStr l)]); ("name"%string, JStr "x")])].
Example ex_C38 : denotes ex_pred (FOr [FGeneration; FAnd [FLabels; FNot FAnnotations]])
  /\ option_map (fun f => map f [WUpdate (Some (gen 1 "a")) (Some (gen 2 "a")); WUpdate (Some (gen 1 "a")) (Some (gen 1 "a"));
      WUpdate (Some (gen 1 "a")) (Some (gen 1 "b")); WCreate (gen 1 "a")]) (to_predicate ex_pred) = Some [true; false; true; true]
  /\ plain_pred ex_pred
  /\ (v ← marshal ex_pred; unmarshal v) = Some ex_pred.
Proof.
  split; [repeat constructor|]. split; [reflexivity|]. split; [|reflexivity].
  assert (H : forall k ps, Forall plain_pred ps -> plain_pred (Pred None (Some [(k, ps)]))).
  { intros k ps Hf. constructor. intros k' ps' p [[= <- <-]|[]] Hp. by eapply List.Forall_forall in Hf. }
  repeat first [apply pp_basic | apply H | apply Forall_cons; split | by apply Forall_nil].
Qed.

(** Not what it seems: since creations and deletions satisfy every change
    predicate, its negation drops them, and the source never hears of any object. *)
Theorem C38_negation_drops_creations : forall s f, to_predicate (Pred None (Some [("Not"%string, [basic s])])) = Some f ->
  forall m, f (WCreate m) = false /\ f (WDelete m) = false.
Proof.
  intros s f. cbn. unfold basic_predicate. repeat case_decide; cbn; intros [= <-] m; done.
Qed.
Print Assumptions C38_negation_drops_creations.

(** Refuted for trees with both pointers set, and for JSON nulls, which become
    the unknown predicate "". *)
Theorem C38_round_trip_refuted :
  (v ← marshal (Pred (Some "LabelChanged"%string) (Some [])); unmarshal v) = Some (basic "LabelChanged")
  /\ unmarshal (JMap [("And"%string, JList [JNull])]) = Some (Pred None (Some [("And"%string, [basic ""])])) /\ to_predicate (basic "") = None.
Proof. split_and!; reflexivity. Qed.
Print Assumptions C38_round_trip_refuted.

(** ** C46 *)

(** A source with a filter on objects (label or namespace selector) delivers
    events from which exactly the currently matching objects result, provided
    that no update changes whether an object matches. *)
Theorem C46_selection_partial : forall sel evs, (forall m, sel (stripped m) = sel m) -> informer ∅ evs -> stable sel evs ->
  after (requests [p_funcs sel] evs) = filter (fun xm => sel xm.2 = true) (objects evs).
Proof. exact select_ok. Qed.
Print Assumptions C46_selection_partial.
(** The same for the predicates that a source is built with: both selectors apply,
    and only the label selector must be stable. *)
Theorem C46_source_partial : forall f ns evs, informer ∅ evs -> stable (selected f None) evs -> exists ps, source_predicates None f ns = Some ps
  /\ after (requests ps evs) = filter (fun xm => selected f ns xm.2 = true) (objects evs).
Proof. exact source_selects. Qed.
Print Assumptions C46_source_partial.
(** With a predicate, an event is delivered if and only if the predicate is true
    of it and the object is selected. *)
Theorem C46_delivered : forall p F f ns, denotes p F -> exists ps, source_predicates (Some p) f ns = Some ps
  /\ forall e m, subject e = Some m -> forallb (fun q => q e) ps = true <-> holds e F /\ selected f ns m = true.
Proof. exact source_delivers. Qed.
Print Assumptions C46_delivered.
(** Namespace selectors are always right. *)
Theorem C46_namespace : forall ns evs, informer ∅ evs ->
  after (requests [p_funcs (fun m => bool_decide (get_namespace m = ns))] evs) = filter (fun xm => bool_decide (get_namespace xm.2 = ns) = true) (objects evs).
Proof. exact select_namespace. Qed.
Print Assumptions C46_namespace.

Definition labelled (name app : string) : jobj :=
  [("apiVersion"%string, JStr "v1"); ("kind"%string, JStr "Pod");
   ("metadata"%string, JMap [("labels"%string, JMap [("app"%string, JStr app)]); ("name"%string, JStr name); ("namespace"%string, JStr "default")])].
Definition app_is (app : string) (l : option (list (string * string))) : bool := bool_decide (l = Some [("app"%string, app)]).
Definition ex_informer : list wevent :=
  [WCreate (labelled "a" "web"); WCreate (labelled "b" "db"); WUpdate (Some (labelled "a" "web")) (Some (labelled "a" "web")); WDelete (labelled "b" "db")].
Example ex_C46 : informer ∅ ex_informer /\ stable (fun m => app_is "web" (get_labels m)) ex_informer
  /\ requests [p_funcs (fun m => app_is "web" (get_labels m))] ex_informer = [Delta Added (labelled "a" "web"); Delta Updated (labelled "a" "web")].
Proof.
  split; [cbn; split_and!; try exact I; vm_compute; reflexivity|]. split; [|vm_compute; reflexivity].
  intros old m Hin. unfold ex_informer in Hin. simpl in Hin. destruct Hin as [H|[H|[H|[H|[]]]]]; try discriminate. by injection H as <- <-.
Qed.

Example ex_C46_source : stable (selected (Some (app_is "web")) None) ex_informer
  /\ (fun ps => requests ps ex_informer) <$> source_predicates None (Some (app_is "web")) (Some "default"%string) = Some [Delta Added (labelled "a" "web"); Delta Updated (labelled "a" "web")]
  /\ (fun ps => requests ps ex_informer) <$> source_predicates None (Some (app_is "web")) (Some "other"%string) = Some []
  /\ (fun ps => requests ps ex_informer) <$> source_predicates (Some (basic "LabelChanged")) None (Some "default"%string)
     = Some [Delta Added (labelled "a" "web"); Delta Added (labelled "b" "db"); Delta Deleted (labelled "b" "db")].
Proof.
  split; [|split_and!; vm_compute; reflexivity].
  intros old m Hin. unfold ex_informer in Hin. simpl in Hin. destruct Hin as [H|[H|[H|[H|[]]]]]; try discriminate. by injection H as <- <-.
Qed.

(** Refuted for label selectors: an object that loses the label, and is deleted
    afterwards, stays in the pipeline forever. *)
Definition ex_relabel : list wevent :=
  [WCreate (labelled "a" "web"); WUpdate (Some (labelled "a" "web")) (Some (labelled "a" "db")); WDelete (labelled "a" "db")].
Theorem C46_selection_refuted :
  informer ∅ ex_relabel
  /\ source_predicates None (Some (app_is "web")) None = Some [p_funcs (fun m => app_is "web" (get_labels m))]
  /\ of_kind "Pod" (objects ex_relabel) = []
  /\ of_kind "Pod" (objects (take 2 ex_relabel)) = [labelled "a" "db"]
  /\ of_kind "Pod" (after (requests [p_funcs (fun m => app_is "web" (get_labels m))] (take 2 ex_relabel))) = [labelled "a" "web"]
  /\ of_kind "Pod" (after (requests [p_funcs (fun m => app_is "web" (get_labels m))] ex_relabel)) = [labelled "a" "web"].
Proof. split; [cbn; split_and!; try exact I; vm_compute; reflexivity|]. split; [reflexivity|]. split_and!; vm_compute; reflexivity. Qed.
Print Assumptions C46_selection_refuted.
