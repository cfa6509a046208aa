(** Properties C53 (requests to the API server for views) and C54 (the tables that
    kubectl shows). *)
From Verif Require Import ViewModel ZSetSpec PipelineSpec GroupSpec ValueSpec JsonSpec ViewSpec StorageModel StorageSpec.
From Verif Require Import JsonProofs ObjProofs ValueProofs GroupProofs ViewProofs ViewProofs2 WriterSpec WriterProofs PropsView StorageProofs.

(** ** C53 *)

(** After any history of requests for several kinds, mixed with writes by the
    pipelines, on an empty cache, every request returned and did what it says on a
    plain map from kind, namespace and name to object; and the watchers of each kind
    were told exactly the changes.  Partial: names with slashes, views of native
    kinds and negative zeros are left out, and requests do not overlap. *)
Theorem C53_requests_partial : forall hash lister l, lists_all lister -> Forall sact_ok l ->
  let '(c, es, results) := sact_run hash lister ∅ l in
  let '(w, expected) := ideal_acts hash ∅ l in
  Forall2 result_as results expected
  /\ (forall x ns name, is_view_kind x = true -> plain (ns, name) -> vc_get c x ns name = w !! (x, (ns, name)))
  /\ tells ∅ es w.
Proof.
  intros hash lister l L F. assert (S := sacts_sim hash lister L l ∅ ∅ (sim_empty hash) F).
  destruct (sact_run hash lister ∅ l) as [[c es] rs]. destruct (ideal_acts hash ∅ l) as [w exps]. destruct S as (S1 & S2 & S3). split_and!; [done| |done].
  intros x ns name V Hp. by eapply vc_get_sim.
Qed.
Print Assumptions C53_requests_partial.

(** What POST stores and returns is what was sent, under the kind and the namespace
    of the URL. *)
Theorem C53_placed : forall x ns m, gvk_ok x -> sendable m ->
  get_gvk (placed x ns m) = x /\ obj_id (placed x ns m) = (ns, get_name m)
  /\ (forall k, k <> "metadata"%string -> k <> "apiVersion"%string -> k <> "kind"%string -> mget (placed x ns m) k = mget m k)
  /\ (forall f, f <> "namespace"%string -> meta (placed x ns m) f = meta m f).
Proof.
  intros x ns m G S. split_and!.
  - apply gvk_is_get; [done|apply placed_is].
  - by apply placed_id.
  - intros k N1 N2 N3. by apply placed_get.
  - intros f N. rewrite placed_meta by done. by rewrite decide_False.
Qed.
Print Assumptions C53_placed.

(** A request neither changes nor depends on objects of other kinds or, when it names
    a namespace, of other namespaces: [about] says which ones it is about. *)
Theorem C53_isolation_partial : forall hash lister l1 l2 x r, lists_all lister -> Forall sact_ok l1 -> Forall sact_ok l2 -> sact_ok (Api x r) ->
  let c1 := (sact_run hash lister ∅ l1).1.1 in let c2 := (sact_run hash lister ∅ l2).1.1 in
  let '(c1', _, r1) := serve hash lister x true c1 r in
  let '(c2', _, r2) := serve hash lister x true c2 r in
  same_on (fun y ns => ~ about x r y ns) c1 c1'
  /\ (forall m, In m (shown r1) -> about x r (get_gvk m) (get_namespace m))
  /\ (same_on (about x r) c1 c2 -> alike r1 r2 /\ same_on (about x r) c1' c2').
Proof.
  intros hash lister l1 l2 x r L F1 F2 (O & G & R). cbv zeta.
  assert (S1 := sacts_sim hash lister L l1 ∅ ∅ (sim_empty hash) F1). destruct (sact_run hash lister ∅ l1) as [[c1 es1] rs1]. destruct (ideal_acts hash ∅ l1) as [w1 exps1]. destruct S1 as (S1 & _).
  assert (S2 := sacts_sim hash lister L l2 ∅ ∅ (sim_empty hash) F2). destruct (sact_run hash lister ∅ l2) as [[c2 es2] rs2]. destruct (ideal_acts hash ∅ l2) as [w2 exps2]. destruct S2 as (S2 & _).
  cbn [fst]. assert (T1 := serve_sim hash lister L x O G c1 w1 r S1 R). assert (T2 := serve_sim hash lister L x O G c2 w2 r S2 R).
  assert (K1 := sim_keyed _ _ _ S1). assert (K2 := sim_keyed _ _ _ S2).
  assert (D := fun y i => ideal_serve_other hash x w1 r y i K1). assert (E := ideal_serve_alike hash x w1 w2 r K1 K2).
  assert (I := ideal_shown hash x G w1 r R K1 (sim_sound _ _ _ S1)).
  destruct (serve hash lister x true c1 r) as [[c1' es1'] r1]. destruct (serve hash lister x true c2 r) as [[c2' es2'] r2].
  destruct (ideal_serve hash w1 x r) as [w1' e1]. destruct (ideal_serve hash w2 x r) as [w2' e2].
  destruct T1 as (T1 & A1 & _). destruct T2 as (T2 & A2 & _). cbn [fst snd] in *. split_and!.
  - apply (same_on_world hash c1 w1 c1' w1'); [done..|]. intros y i N. symmetry. by apply D.
  - intros m Hm. by apply (I r1 A1).
  - intros A. apply (same_on_world hash c1 w1 c2 w2) in A; [|done..]. destruct (E A) as [E1 E2]. split; [by eapply alike_as|]. by apply (same_on_world hash c1' w1' c2' w2').
Qed.
Print Assumptions C53_isolation_partial.

(** A request that fails changes nothing and is told to nobody, whatever the state. *)
Theorem C53_failed : forall hash lister x namespaced c r, let '(c', es, p) := serve hash lister x namespaced c r in failure p -> c' = c /\ es = [].
Proof. intros. apply serve_failed. Qed.
Print Assumptions C53_failed.

(** What a successful write returns is what Get then shows, with a UID added if there
    was none; what Delete returns is what was there, and Get then finds nothing. *)
Theorem C53_read_back_partial : forall hash lister l x r ns name, lists_all lister -> Forall sact_ok l -> sact_ok (Api x r) ->
  match r with SCreate n m _ _ => n = Some ns /\ get_name m = name | SUpdate n name' _ _ _ _ _ | SDelete n name' _ _ => n = Some ns /\ name' = name | _ => False end ->
  let c := (sact_run hash lister ∅ l).1.1 in
  let '(c', _, p) := serve hash lister x true c r in
  match p with
  | SObject m => obj_id m = (ns, name) /\ st_get x true c' (Some ns) name = SObject (stamp hash m)
  | SGone m => st_get x true c (Some ns) name = SObject m /\ st_get x true c' (Some ns) name = SNotFound
  | _ => st_get x true c' (Some ns) name = st_get x true c (Some ns) name
  end.
Proof.
  intros hash lister l x r ns name L F (O & G & R) Hr. cbv zeta.
  assert (S := sacts_sim hash lister L l ∅ ∅ (sim_empty hash) F). destruct (sact_run hash lister ∅ l) as [[c es] rs]. destruct (ideal_acts hash ∅ l) as [w exps]. destruct S as (S & _).
  cbn [fst]. assert (T := serve_sim hash lister L x O G c w r S R). assert (B := ideal_read_back hash x w r ns name R (sim_sound _ _ _ S) Hr).
  assert (P : plain (ns, name)). { destruct r as [| |n m v o|n nm u vn v f o|n nm v o|]; try done; destruct Hr as [-> <-]; cbn in R; try done; by destruct R. }
  destruct (serve hash lister x true c r) as [[c' es'] p]. destruct (ideal_serve hash w x r) as [w' e]. destruct T as (T & A & _). cbn [fst snd] in *.
  assert (E1 := st_get_sim hash x O c w ns name S P). assert (E2 := st_get_sim hash x O c' w' ns name T P). rewrite E1, E2.
  destruct e as [q|]; [|done]. cbn in A. subst q. destruct p; try (by rewrite B).
  - destruct B as [B1 B2]. by rewrite B2.
  - destruct B as [B1 B2]. by rewrite B1, B2.
Qed.
Print Assumptions C53_read_back_partial.

(** Data for the examples. *)
Definition no_opts : ropts := Ropts false None None.
Definition body (kind name phase : string) : jobj :=
  [("metadata"%string, JMap [("name"%string, JStr name)]); ("status"%string, JMap [("phase"%string, JStr phase)])].
Definition fine (m : jobj) : bool := true.
Definition fine2 (m n : jobj) : bool := true.
Definition post (ns name phase : string) : sact := Api v_gvk (SCreate (Some ns) (body "V" name phase) fine no_opts).
Definition put_phase (ns name phase : string) : sact :=
  Api v_gvk (SUpdate (Some ns) name (fun cur => match cur with Some _ => Some (view "V" ns name phase) | None => None end) fine fine2 false no_opts).
Definition get_it (ns name : string) : sact := Api v_gvk (SGet (Some ns) name).
Definition list_in (ns : option string) : sact := Api v_gvk (SList ns None None).
Definition delete_it (ns name : string) : sact := Api v_gvk (SDelete (Some ns) name fine no_opts).
Definition phase_of (r : sresult) : list (option json) := match r with Reply r => map (fun m => nested_get m ["status"; "phase"]) (shown r) | _ => [] end.
Lemma v_own : own_kind v_gvk.
Proof. exists "op"%string, "V"%string. split; [|done]. by vm_compute. Qed.
Lemma v_gvk_ok : gvk_ok v_gvk.
Proof. vm_compute. reflexivity. Qed.
Lemma body_sendable kind name phase : sendable (body kind name phase).
Proof. split_and!; [|repeat constructor|done]. repeat constructor. Qed.

Definition story : list sact := [post "x" "a" "1"; post "y" "a" "2"; put_phase "x" "a" "3"; Write (VCreate (view "V" "x" "b" "4")); get_it "x" "a"; delete_it "x" "a"; get_it "x" "a"; list_in (Some "y"%string)].
Example C53_example :
  Forall sact_ok story
  /\ map phase_of (sact_run id_hash any_order ∅ story).2
     = [[Some (JStr "1")]; [Some (JStr "2")]; [Some (JStr "3")]; []; [Some (JStr "3")]; [Some (JStr "3")]; []; [Some (JStr "2")]]
  /\ sendable (body "V" "a" "1") /\ failure (serve id_hash any_order v_gvk true ∅ (SGet (Some "x"%string) "a")).2
  /\ about v_gvk (SGet (Some "x"%string) "a") v_gvk "x" /\ ~ about v_gvk (SGet (Some "x"%string) "a") v_gvk "y".
Proof.
  split_and!.
  - unfold story. repeat (apply Forall_cons; split); try apply Forall_nil; try (split; [apply v_own|split; [apply v_gvk_ok|]]); try done.
    + split; [apply body_sendable|]. by vm_compute.
    + split; [apply body_sendable|]. by vm_compute.
    + split; [by vm_compute|]. intros [cur|] m _; [|done]. intros [= <-]. split; [|done]. split_and!; [repeat constructor|repeat constructor|done].
    + split_and!; [repeat constructor|repeat constructor|by vm_compute].
  - vm_compute. reflexivity.
  - apply body_sendable.
  - right. left. vm_compute. reflexivity.
  - split; [done|]. by left.
  - intros [_ [H|[H _]]]; done.
Qed.

(** Refuted: POST refuses a name that is taken. It replaces the object, and the event
    says that it was created. *)
Theorem C53_create_exists_refuted :
  let '(c, es, rs) := sact_run id_hash any_order ∅ [post "x" "a" "1"; post "x" "a" "2"; get_it "x" "a"] in
  map phase_of rs = [[Some (JStr "1")]; [Some (JStr "2")]; [Some (JStr "2")]]
  /\ map (fun e => match e.2 with WCreate _ => true | _ => false end) es = [true; true].
Proof. vm_compute. split; reflexivity. Qed.
Print Assumptions C53_create_exists_refuted.

(** Refuted: a PUT made from an object that has changed since it was read is refused.
    Two clients read the object; each changes one field and puts the whole object
    back; both succeed, and the first change is lost. *)
Definition put_whole (m : jobj) : sact := Api v_gvk (SUpdate (Some "x"%string) "a" (fun _ => Some m) fine fine2 false no_opts).
Definition read_a : jobj := [("metadata"%string, JMap [("name"%string, JStr "a"); ("namespace"%string, JStr "x")]); ("spec"%string, JMap [("p"%string, JInt 1); ("q"%string, JInt 1)])].
Definition changed (p q : Z) : jobj := mset read_a "spec" (JMap [("p"%string, JInt p); ("q"%string, JInt q)]).
Theorem C53_stale_update_refuted :
  let '(c, _, rs) := sact_run id_hash any_order ∅ [Api v_gvk (SCreate (Some "x"%string) read_a fine no_opts); put_whole (changed 2 1); put_whole (changed 1 2); get_it "x" "a"] in
  map (fun r => match r with Reply r => map (fun m => nested_get m ["spec"; "p"]) (shown r) | _ => [] end) rs = [[Some (JInt 1)]; [Some (JInt 2)]; [Some (JInt 1)]; [Some (JInt 1)]].
Proof. vm_compute. reflexivity. Qed.
Print Assumptions C53_stale_update_refuted.

(** Refuted: what POST returns is what was stored. The UID is missing. *)
Theorem C53_create_answer_refuted :
  let '(c, _, rs) := sact_run id_hash any_order ∅ [post "x" "a" "1"; get_it "x" "a"] in
  map (fun r => match r with Reply (SObject m) => bool_decide (get_uid m = ""%string) | _ => false end) rs = [true; false].
Proof. vm_compute. reflexivity. Qed.
Print Assumptions C53_create_answer_refuted.

(** Refuted: a dry run changes nothing, and a delete with the UID of another object
    deletes nothing. *)
Theorem C53_options_refuted :
  let '(c, _, rs) := sact_run id_hash any_order ∅
    [Api v_gvk (SCreate (Some "x"%string) (body "V" "a" "1") fine (Ropts true None None)); get_it "x" "a";
     Api v_gvk (SDelete (Some "x"%string) "a" fine (Ropts false (Some "other"%string) None)); get_it "x" "a"] in
  map phase_of rs = [[Some (JStr "1")]; [Some (JStr "1")]; [Some (JStr "1")]; []].
Proof. vm_compute. reflexivity. Qed.
Print Assumptions C53_options_refuted.

(** Refuted: objects sent with generateName get different names. Both are stored
    under the empty name. *)
Definition nameless (p : Z) : jobj := [("metadata"%string, JMap [("generateName"%string, JStr "a-")]); ("p"%string, JInt p)].
Theorem C53_generate_name_refuted :
  let '(c, _, rs) := sact_run id_hash any_order ∅
    [Api v_gvk (SCreate (Some "x"%string) (nameless 1) fine no_opts); Api v_gvk (SCreate (Some "x"%string) (nameless 2) fine no_opts); list_in None] in
  map (fun r => match r with Reply r => map (fun m => (get_name m, mget m "p")) (shown r) | _ => [] end) rs
  = [[(""%string, Some (JInt 1))]; [(""%string, Some (JInt 2))]; [(""%string, Some (JInt 2))]].
Proof. vm_compute. reflexivity. Qed.
Print Assumptions C53_generate_name_refuted.

(** Refuted: deleting a collection returns what was deleted. Objects that admission
    keeps are returned too. *)
Theorem C53_collection_refuted :
  let '(c, _, rs) := sact_run id_hash any_order ∅ [post "x" "a" "1"; Api v_gvk (SDeleteAll (Some "x"%string) (fun _ => false) None None no_opts); list_in None] in
  map phase_of rs = [[Some (JStr "1")]; [Some (JStr "1")]; [Some (JStr "1")]].
Proof. vm_compute. reflexivity. Qed.
Print Assumptions C53_collection_refuted.

(** ** C54 *)

(** A table has one row for each object, in order, and a cell for each column; the
    cells below Name and Namespace say which object it is, and the others are below their
    titles. *)
Theorem C54_rows : forall order namespaced l,
  let rows := table_rows order namespaced l in
  length rows = length l /\ (forall i m, l !! i = Some m -> exists row, rows !! i = Some row /\ length row = length (table_columns namespaced)
    /\ (forall j, table_columns namespaced !! j = Some "Name"%string -> row !! j = Some (get_name m))
    /\ (forall j, table_columns namespaced !! j = Some "Namespace"%string -> row !! j = Some (get_namespace m))
    /\ (forall j, table_columns namespaced !! j = Some "Conditions"%string -> row !! j = Some (conditions_cell m))
    /\ (forall j, table_columns namespaced !! j = Some "Labels"%string -> row !! j = Some (labels_cell order (get_labels m)))
    /\ (forall j, table_columns namespaced !! j = Some "Annotations"%string -> row !! j = Some (annotations_cell (string_map (nested_get m ["metadata"; "annotations"]))))).
Proof.
  intros order namespaced l. cbv zeta. split; [apply map_length|]. intros i m E. exists (table_row order namespaced m). split; [|split].
  - unfold table_rows. change (map ?f ?l) with (f <$> l). rewrite list_lookup_fmap, E. done.
  - by destruct namespaced.
  - split_and!; intros j; unfold table_row, table_columns; destruct namespaced, j as [|[|[|[|[|j]]]]]; cbn; intros H; simplify_eq; done.
Qed.
Print Assumptions C54_rows.

(** The conditions of an object: Ready first, then Available, Progressing and
    Degraded, then the others, in the order they have in the object; at most three of
    them, and how many more there are. *)
Theorem C54_conditions : forall m l ts, nested_get m ["status"; "conditions"] = Some (JList l) -> conditions_are l ts ->
  exists ts', sorted_as ts ts' /\ conditions_cell m = summary (map pair_of ts').
Proof.
  intros m l ts E H. destruct (sort_conditions_spec l ts H [] []) as (K & O & E1 & H1 & H2 & H3 & H4); [constructor|constructor|]. exists (K ++ O)%list. split; [split|].
  - by apply sorted_app.
  - intros n. rewrite List.filter_app. apply H4.
  - unfold conditions_cell. rewrite E. destruct l as [|c l].
    + inversion H; subst. cbn in E1. injection E1 as E1 E2. destruct K; [|done]. destruct O; done.
    + cbn [map] in E1. rewrite E1. cbn [app]. rewrite <- map_app. destruct (map pair_of (K ++ O)%list) as [|a r] eqn:Er; [done|]. by apply at_most_summary.
Qed.
Print Assumptions C54_conditions.
(** Such an order is unique, so the cell is determined by the conditions. *)
Theorem C54_conditions_unique : forall ts t1 t2, sorted_as ts t1 -> sorted_as ts t2 -> t1 = t2.
Proof. intros ts t1 t2 [S1 F1] [S2 F2]. apply sorted_unique; [done..|]. intros n. by rewrite F1, F2. Qed.
Print Assumptions C54_conditions_unique.
(** Every list of conditions is of this form. *)
Theorem C54_conditions_total : forall l, exists ts, conditions_are l ts.
Proof. apply conditions_total. Qed.
Print Assumptions C54_conditions_total.
(** Objects without a list of conditions show none. *)
Theorem C54_no_conditions : forall m, (forall l, nested_get m ["status"; "conditions"] <> Some (JList l)) -> conditions_cell m = "<none>"%string.
Proof. intros m H. unfold conditions_cell. destruct (nested_get m _) as [[]|] eqn:E; try done. by destruct (H l). Qed.
Print Assumptions C54_no_conditions.
(** Up to three labels are all shown, in some order; the annotations are counted. *)
Theorem C54_labels_partial : forall order l, (forall l, Permutation (order l) l) -> exists l', Permutation l' l /\ labels_cell order (Some l) = summary (map label_text l').
Proof.
  intros order l P. exists (order l). split; [apply P|]. unfold labels_cell. destruct l as [|kv l]; [assert (E := P []); apply Permutation_nil_r in E; by rewrite E|].
  apply at_most_summary. intros E. apply map_eq_nil in E. assert (P' := P (kv :: l)). rewrite E in P'. by apply Permutation_nil_cons in P'.
Qed.
Print Assumptions C54_labels_partial.
Theorem C54_annotations : forall l, annotations_cell (Some l) = if decide (l = []) then "<none>"%string else pretty (Z.of_nat (length l)).
Proof. intros [|kv l]; done. Qed.
Print Assumptions C54_annotations.

(** Refuted: the same object is always shown in the same way. The labels come in the
    iteration order of a Go map; with more than three even the ones shown differ. *)
Definition four_labels : list (string * string) := [("a", "1"); ("b", "2"); ("c", "3"); ("d", "4")]%string.
Theorem C54_labels_refuted : exists order1 order2, (forall l, Permutation (order1 l) l) /\ (forall l, Permutation (order2 l) l)
  /\ labels_cell order1 (Some four_labels) = "a=1,b=2,c=3 +1 more"%string /\ labels_cell order2 (Some four_labels) = "d=4,c=3,b=2 +1 more"%string.
Proof. exists (fun l => l), (@rev _). split_and!; [done|intros l; symmetry; apply Permutation_rev|vm_compute; reflexivity..]. Qed.
Print Assumptions C54_labels_refuted.

Definition cond (t s : string) : json := JMap [("status"%string, JStr s); ("type"%string, JStr t)].
Definition conditioned : jobj :=
  [("metadata"%string, JMap [("labels"%string, JMap [("a"%string, JStr "1")]); ("name"%string, JStr "n")]);
   ("status"%string, JMap [("conditions"%string, JList [cond "Other" "True"; cond "Degraded" "False"; JNull; cond "Ready" "True"; cond "Another" "True"; cond "Ready" "False"])])].
Example C54_example :
  table_row (fun l => l) true conditioned = [""; "n"; "Ready:True,Ready:False,Degraded:False +2 more"; "a=1"; "<none>"]%string
  /\ exists l ts, nested_get conditioned ["status"; "conditions"] = Some (JList l) /\ conditions_are l ts /\ length ts = 5%nat.
Proof.
  split; [vm_compute; reflexivity|]. eexists _, [("Other", "True"); ("Degraded", "False"); ("Ready", "True"); ("Another", "True"); ("Ready", "False")]%string. split; [vm_compute; reflexivity|]. split; [|done].
  assert (forall t s, condition t s (cond t s)) by (intros t s; eexists; split; [reflexivity|]; done).
  apply ca_take; [apply H|]. apply ca_take; [apply H|]. apply ca_skip; [intros t s (m & [=] & _)|]. apply ca_take; [apply H|]. apply ca_take; [apply H|]. apply ca_take; [apply H|]. constructor.
Qed.
