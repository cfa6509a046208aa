(** Specification vocabulary for the diagrams. *)
From Verif Require Import VisModel.

(** What a diagram pictured: controllers, and resources as they are written in the
    specification. *)
Inductive thing := TCtrl (name : string) | TRes (group version kind : string).
Definition res_of (r : rsrc) : thing := TRes (default ""%string (s_group r)) (default ""%string (s_version r)) (s_kind r).
(** The flows that the specification declares. *)
Definition reads (cs : list vctrl) (a b : thing) (t : string) : Prop :=
  exists c r t', c ∈ cs /\ (r, t') ∈ v_sources c /\ a = res_of r /\ b = TCtrl (v_name c) /\ t = (if decide (t' = ""%string) then "Watcher"%string else t').
Definition writes (cs : list vctrl) (a b : thing) (t : string) : Prop :=
  exists c, c ∈ cs /\ a = TCtrl (v_name c) /\ b = res_of (v_target c).1 /\ t = (if decide ((v_target c).2 = ""%string) then "Updater"%string else (v_target c).2).
(** The node of a thing. *)
Definition id_of (a : thing) : string := match a with TCtrl n => n | TRes g v k => g +:+ "/" +:+ v +:+ "/" +:+ k end.
Definition pictured (p : picture) (a b : thing) (t : string) : Prop := (id_of a, id_of b, t) ∈ p_edges p.
(** Names are as usual. *)
Definition slash_free (r : rsrc) : Prop := has_slash (default ""%string (s_group r)) = false /\ has_slash (default ""%string (s_version r)) = false /\ has_slash (s_kind r) = false.
Record well_named (cs : list vctrl) : Prop := {
  wn_distinct : NoDup (map v_name cs);
  wn_names : forall c, c ∈ cs -> has_slash (v_name c) = false;
  wn_sources : forall c r t, c ∈ cs -> (r, t) ∈ v_sources c -> slash_free r;
  wn_targets : forall c, c ∈ cs -> slash_free (v_target c).1 }.
(** What the diagram takes for a view. *)
Definition infix (sub s : string) : Prop := exists a b, s = a +:+ sub +:+ b.
Definition seems_view (r : rsrc) : Prop := infix "View" (s_kind r) \/ infix "view.dcontroller.io" (default ""%string (s_group r)).
(** Each view is made by at most one controller of the operator, and the views that are
    read are made by one. *)
Definition one_writer (cs : list vctrl) : Prop := forall c c', c ∈ cs -> c' ∈ cs -> seems_view (v_target c).1 -> res_of (v_target c).1 = res_of (v_target c').1 -> c = c'.
Definition own_views (cs : list vctrl) : Prop := forall c r t, c ∈ cs -> (r, t) ∈ v_sources c -> seems_view r -> exists c', c' ∈ cs /\ res_of (v_target c').1 = res_of r.
(** What is written on the nodes. *)
Fixpoint arrows (l : list string) : string := match l with [] => "" | [x] => x | x :: l => x +:+ " -> " +:+ arrows l end.
Definition ctrl_text (c : vctrl) : string := match v_ops c with [] => v_name c | l => v_name c +:+ ": " +:+ arrows l end.
(** Group, version and Kind, as far as they are given, with slashes between; if a version
    is given but no group, "v1" takes the place of the group. *)
Definition res_text (r : rsrc) : string :=
  let g := default ""%string (s_group r) in let v := default ""%string (s_version r) in
  if decide (v = ""%string) then (if decide (g = ""%string) then s_kind r else g +:+ "/" +:+ s_kind r)
  else (if decide (g = ""%string) then "v1" else g) +:+ "/" +:+ v +:+ "/" +:+ s_kind r.
(** The resources that controllers read or write. *)
Definition mentioned (cs : list vctrl) (r : rsrc) : Prop := exists c, c ∈ cs /\ ((exists t, (r, t) ∈ v_sources c) \/ (v_target c).1 = r).
