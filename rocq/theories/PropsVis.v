(** C67: the diagram of an operator shows its data flow. *)
From Verif Require Import VisModel VisSpec VisProofs.

(** If the names of the controllers differ, each arrow of the diagram is a flow that the
    specification declares, with its type. *)
Theorem C67_sound : forall name cs a b t, NoDup (map v_name cs) -> (a, b, t) ∈ p_edges (draw (build_graph name cs)) ->
  exists x y, a = id_of x /\ b = id_of y /\ (reads cs x y t \/ writes cs x y t).
Proof. exact draw_sound. Qed.
Print Assumptions C67_sound.

(** Each flow is shown, if each view that is read is made by exactly one controller of the
    same operator and is written in the same way where it is read and where it is made.
    What is missing: views of other operators, views with several writers and views that
    are written differently, for which it is false ([C67_flow_refuted]). *)
Theorem C67_complete_partial : forall name cs x y t, well_named cs -> one_writer cs -> own_views cs ->
  reads cs x y t \/ writes cs x y t -> pictured (draw (build_graph name cs)) x y t.
Proof. exact draw_complete. Qed.
Print Assumptions C67_complete_partial.

(** Different things have different nodes. *)
Theorem C67_distinct : forall cs x y, well_named cs ->
  (forall z, z = x \/ z = y -> (exists c, c ∈ cs /\ z = TCtrl (v_name c)) \/ exists r, mentioned cs r /\ z = res_of r) -> id_of x = id_of y -> x = y.
Proof.
  intros cs x y Hw H E. assert (forall r, mentioned cs r -> slash_free r) as Hr.
  { intros r (c & Hc & [[t Ht]|<-]); [by apply (wn_sources _ Hw c r t)|by apply (wn_targets _ Hw)]. }
  destruct (H x) as [(c & Hc & ->)|(r & Hx & ->)]; [by left| |]; (destruct (H y) as [(c' & Hc' & ->)|(r' & Hy & ->)]; [by right| |]).
  - cbn [id_of] in E. by rewrite E.
  - by destruct (id_distinct (v_name c) r' (wn_names _ Hw c Hc)).
  - by destruct (id_distinct (v_name c') r (wn_names _ Hw c' Hc')).
  - apply id_inj; auto.
Qed.
Print Assumptions C67_distinct.

(** The nodes: each controller has one, with its name and its operations; each other node is
    that of a resource that is read or written, with its text; and both ends of each arrow
    have nodes. *)
Theorem C67_nodes : forall name cs, well_named cs ->
  (forall c, c ∈ cs -> exists col, p_nodes (draw (build_graph name cs)) !! id_of (TCtrl (v_name c)) = Some (ctrl_text c, col))
  /\ (forall id lab col, p_nodes (draw (build_graph name cs)) !! id = Some (lab, col) ->
       (exists c, c ∈ cs /\ id = id_of (TCtrl (v_name c)) /\ lab = ctrl_text c) \/ exists r, mentioned cs r /\ id = id_of (res_of r) /\ lab = res_text r)
  /\ forall a b t, (a, b, t) ∈ p_edges (draw (build_graph name cs)) -> is_Some (p_nodes (draw (build_graph name cs)) !! a) /\ is_Some (p_nodes (draw (build_graph name cs)) !! b).
Proof.
  intros name cs Hw. destruct (draw_nodes name cs (wn_distinct _ Hw)) as (H1 & H2 & H3). split_and!; [|exact H1|exact H2].
  intros c Hc. destruct (H3 c Hc) as [[lab col] E]. exists col. cbn [id_of]. rewrite E. destruct (H1 _ _ _ E) as [(c' & Hc' & E1 & ->)|(r & Hr & E1 & _)].
  - assert (build_node c = build_node c') as Eb.
    { apply (name_inj (map build_node cs)); [rewrite names_build; by apply Hw|apply elem_map; by eauto|apply elem_map; by eauto|done]. }
    by rewrite <- (label_ctrl c), <- (label_ctrl c'), Eb.
  - by destruct (id_distinct (v_name c) r (wn_names _ Hw c Hc)).
Qed.
Print Assumptions C67_nodes.

(** Flows that are not shown: a view of another operator that is read; the first of two
    controllers that make the same view; the view that is read under its full group. *)
Definition rs (k : string) : rsrc := RSrc None None k.
Definition reader : vctrl := VCtrl "reader" [(rs "HealthView", ""%string)] ["@project"%string] (RSrc None (Some "v1"%string) "ConfigMap", "Patcher"%string).
Definition reader_full : vctrl := VCtrl "reader" [(RSrc (Some "op.view.dcontroller.io"%string) None "HealthView", ""%string)] ["@project"%string] (RSrc None (Some "v1"%string) "ConfigMap", "Patcher"%string).
Definition writer (n : string) : vctrl := VCtrl n [(rs "Pod", ""%string)] ["@select"%string; "@project"%string] (rs "HealthView", ""%string).
Theorem C67_flow_refuted :
  (reads [reader] (TRes "" "" "HealthView") (TCtrl "reader") "Watcher" /\ ~ pictured (draw (build_graph "op" [reader])) (TRes "" "" "HealthView") (TCtrl "reader") "Watcher")
  /\ (writes [writer "a"; writer "b"; reader] (TCtrl "a") (TRes "" "" "HealthView") "Updater"
      /\ ~ pictured (draw (build_graph "op" [writer "a"; writer "b"; reader])) (TCtrl "a") (TRes "" "" "HealthView") "Updater")
  /\ (reads [writer "a"; reader_full] (TRes "op.view.dcontroller.io" "" "HealthView") (TCtrl "reader") "Watcher"
      /\ ~ pictured (draw (build_graph "op" [writer "a"; reader_full])) (TRes "op.view.dcontroller.io" "" "HealthView") (TCtrl "reader") "Watcher").
Proof.
  assert (forall (P : Prop) `{Decision P}, bool_decide P = false -> ~ P) as N by (intros P D H; by apply bool_decide_eq_false in H).
  split_and!.
  - exists reader, (rs "HealthView"), ""%string. split_and!; [left|left|done|done|done].
  - unfold pictured. refine (N _ (elem_of_list_dec _ _) _). vm_compute. reflexivity.
  - exists (writer "a"). split_and!; [left|done|done|done].
  - unfold pictured. refine (N _ (elem_of_list_dec _ _) _). vm_compute. reflexivity.
  - exists reader_full, (RSrc (Some "op.view.dcontroller.io"%string) None "HealthView"), ""%string. split_and!; [right; left|left|done|done|done].
  - unfold pictured. refine (N _ (elem_of_list_dec _ _) _). vm_compute. reflexivity.
Qed.
Print Assumptions C67_flow_refuted.

(** A flow can be shown twice: the arrow from a controller to its view, once for each reader
    of the view. *)
Definition reader' : vctrl := VCtrl "other" [(rs "HealthView", ""%string)] [] (rs "Service", ""%string).
Theorem C67_once_refuted :
  length (filter (fun e => e = ("a", "//HealthView", "Updater")%string) (p_edges (draw (build_graph "op" [writer "a"; reader; reader'])))) = 2%nat.
Proof. vm_compute. reflexivity. Qed.
Print Assumptions C67_once_refuted.

(** Two resources can have the same text, and the text of a resource of the core group does
    not name its version as users write it: version v1 of Pod reads "v1/v1/Pod". *)
Theorem C67_text_refuted : exists r r', slash_free r /\ slash_free r' /\ res_of r <> res_of r' /\ res_text r = res_text r' /\ res_text r = "v1/v1/Pod"%string /\ s_group r = None /\ s_version r = Some "v1"%string.
Proof. exists (RSrc None (Some "v1"%string) "Pod"), (RSrc (Some "v1"%string) (Some "v1"%string) "Pod"). unfold slash_free. split_and!; done. Qed.
Print Assumptions C67_text_refuted.

(** The hypotheses hold of a chain of controllers, and what is drawn. *)
Example ex_C67 : let cs := [writer "a"; reader] in
  well_named cs /\ one_writer cs /\ own_views cs
  /\ p_edges (draw (build_graph "op" cs)) =
       [("//Pod", "a", "Watcher"); ("reader", "/v1/ConfigMap", "Patcher"); ("a", "//HealthView", "Updater"); ("//HealthView", "reader", "Watcher")]%string
  /\ p_nodes (draw (build_graph "op" cs)) !! "a"%string = Some ("a: @select -> @project", "lightblue")%string
  /\ p_nodes (draw (build_graph "op" cs)) !! "//HealthView"%string = Some ("HealthView", "lightcyan")%string.
Proof.
  cbn zeta. split_and!; try (vm_compute; reflexivity).
  - split.
    + change (map v_name [writer "a"; reader]) with ["a"; "reader"]%string. apply NoDup_cons. split; [by intros [E|E%elem_of_nil]%elem_of_cons|]. apply NoDup_singleton.
    + intros c [->|[->|Hc%elem_of_nil]%elem_of_cons]%elem_of_cons; done.
    + intros c r t [->|[->|Hc%elem_of_nil]%elem_of_cons]%elem_of_cons Hr; [| |done]; (apply elem_of_cons in Hr as [E|E%elem_of_nil]; [|done]); injection E as -> ->; done.
    + intros c [->|[->|Hc%elem_of_nil]%elem_of_cons]%elem_of_cons; done.
  - intros c c' [->|[->|Hc%elem_of_nil]%elem_of_cons]%elem_of_cons [->|[->|Hc'%elem_of_nil]%elem_of_cons]%elem_of_cons; done.
  - intros c r t [->|[->|Hc%elem_of_nil]%elem_of_cons]%elem_of_cons Hr; [| |done]; (apply elem_of_cons in Hr as [E|E%elem_of_nil]; [|done]); injection E as -> ->; intros Hv.
    + exfalso. apply (is_view_spec (rs "Pod") "") in Hv. vm_compute in Hv. done.
    + exists (writer "a"). split; [left|done].
Qed.
