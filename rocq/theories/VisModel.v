(** Model of the diagrams of operators: pkg/visualize/visualize.go.

    Simplifications:
    - Of the attributes of a node the label and the colour are kept, of those of an edge the
      label.
    - The library emicklei/dot is modelled from memory: Node finds or creates a node by its
      identifier, and Edge always adds an edge.  Its output as text is left out. *)
From Verif Require Export OperatorModel.

(** controller_types.go Source and Target: a resource with a type, which may be empty *)
Record vctrl := VCtrl { v_name : string; v_sources : list (rsrc * string); v_ops : list string; v_target : rsrc * string }.
(** visualize.go:27-33 ResourceRef *)
Record vref := VRef { r_group : string; r_version : string; r_kind : string; r_type : string }.
(** visualize.go:19-25 ControllerNode *)
Record vnode := VNode { n_name : string; n_sources : list vref; n_stages : list string; n_target : vref }.
(** visualize.go:35-42 Connection *)
Record vconn := VConn { k_from : string; k_to : string; k_kind : string; k_ttype : string; k_stype : string }.
(** visualize.go:12-17 Graph *)
Record vgraph := VGraph { g_name : string; g_ctrls : list vnode; g_conns : list vconn }.

(** visualize.go:78-95 buildResourceRef *)
Definition build_ref (r : rsrc) (t : string) : vref := VRef (default ""%string (s_group r)) (default ""%string (s_version r)) (s_kind r) t.
(** visualize.go:97-106 extractPipelineStages *)
Definition stage_names (l : list string) : list string := map (fun op => op +:+ ": ...") l.
(** visualize.go:53-70, one controller *)
Definition build_node (c : vctrl) : vnode :=
  VNode (v_name c) (map (fun s => build_ref s.1 (if decide (s.2 = EmptyString) then "Watcher"%string else s.2)) (v_sources c)) (stage_names (v_ops c))
    (build_ref (v_target c).1 (v_target c).2).
(** strings.Contains *)
Fixpoint contains (sub s : string) : bool :=
  String.prefix sub s || match s with EmptyString => false | String _ s => contains sub s end.
(** visualize.go:146-149 isView *)
Definition is_view (r : vref) : bool := contains "View" (r_kind r) || contains "view.dcontroller.io" (r_group r).
(** visualize.go:151-154 resourceKey *)
Definition ref_key (r : vref) : string := r_group r +:+ "/" +:+ r_version r +:+ "/" +:+ r_kind r.
(** visualize.go:111-125 viewProducers: later controllers replace earlier ones *)
Definition producers (cs : list vnode) : gmap string (string * string) :=
  foldl (fun m c => if is_view (n_target c) then <[ref_key (n_target c) := (n_name c, r_type (n_target c))]> m else m) ∅ cs.
(** visualize.go:127-143 *)
Definition connect (cs : list vnode) : list vconn :=
  concat (map (fun c => omap (fun s =>
    if is_view s then (fun p => VConn p.1 (n_name c) (r_kind s) p.2 (r_type s)) <$> producers cs !! ref_key s else None) (n_sources c)) cs).
(** visualize.go:44-76 BuildGraph *)
Definition build_graph (name : string) (cs : list vctrl) : vgraph :=
  let ns := map build_node cs in VGraph name ns (connect ns).
(** visualize.go:156-172 IsTerminalView *)
Definition is_terminal (g : vgraph) (c : vnode) : bool :=
  is_view (n_target c)
  && negb (existsb (fun c' => existsb (fun s => is_view s && String.eqb (ref_key s) (ref_key (n_target c))) (n_sources c')) (g_ctrls g)).
(** strings.Join(l, "/") *)
Fixpoint join_slash (l : list string) : string := match l with [] => EmptyString | [x] => x | x :: l => x +:+ "/" +:+ join_slash l end.
(** visualize.go:174-189 FormatGVK *)
Definition format_ref (r : vref) : string :=
  join_slash ((if decide (r_group r = EmptyString) then [] else [r_group r])
    ++ (if decide (r_version r = EmptyString) then [] else (if decide (r_group r = EmptyString) then ["v1"%string] else []) ++ [r_version r]) ++ [r_kind r]).

(** The picture: nodes with label and colour, edges with label *)
Record picture := Picture { p_nodes : gmap string (string * string); p_edges : list (string * string * string) }.
Definition set_node (id label colour : string) (p : picture) : picture := Picture (<[id := (label, colour)]> (p_nodes p)) (p_edges p).
Definition add_edge (a b label : string) (p : picture) : picture := Picture (p_nodes p) (p_edges p ++ [(a, b, label)]).
(** strings.TrimSuffix *)
Definition trim_suffix (suf s : string) : string := if has_suffix suf s then String.substring 0 (String.length s - String.length suf) s else s.
Fixpoint join_arrow (l : list string) : string := match l with [] => EmptyString | [x] => x | x :: l => x +:+ " -> " +:+ join_arrow l end.
(** visualize.go:209-219 *)
Definition ctrl_label (c : vnode) : string :=
  match n_stages c with [] => n_name c | l => n_name c +:+ ": " +:+ join_arrow (map (trim_suffix ": ...") l) end.
Definition or_default (d t : string) : string := if decide (t = EmptyString) then d else t.
(** A node that is made once for each key: the flag map of each part of BuildDotGraph is
    the list [seen]. *)
Definition node_once (seen : list string) (r : vref) (colour : string) (p : picture) : list string * picture :=
  if decide (ref_key r ∈ seen) then (seen, p) else (ref_key r :: seen, set_node (ref_key r) (format_ref r) colour p).

(** visualize.go:207-231 *)
Definition draw_ctrls (cs : list vnode) (p : picture) : picture := foldl (fun p c => set_node (n_name c) (ctrl_label c) "lightblue" p) p cs.
(** visualize.go:233-259 *)
Definition draw_source (c : vnode) (st : list string * picture) (s : vref) : list string * picture :=
  if is_view s then st
  else let '(seen, p) := node_once st.1 s "lightgreen" st.2 in (seen, add_edge (ref_key s) (n_name c) (or_default "Watcher" (r_type s)) p).
Definition draw_sources (cs : list vnode) (p : picture) : picture := (foldl (fun st c => foldl (draw_source c) st (n_sources c)) ([], p) cs).2.
(** visualize.go:261-295 *)
Definition draw_target (g : vgraph) (st : list string * picture) (c : vnode) : list string * picture :=
  if negb (is_view (n_target c)) || is_terminal g c then
    let '(seen, p) := node_once st.1 (n_target c) (if is_terminal g c then "lightcyan" else "lightyellow")%string st.2 in
    (seen, add_edge (n_name c) (ref_key (n_target c)) (or_default "Updater" (r_type (n_target c))) p)
  else st.
Definition draw_targets (g : vgraph) (p : picture) : picture := (foldl (draw_target g) ([], p) (g_ctrls g)).2.
(** visualize.go:310-316: the target of the first controller of that name that makes a
    view; the zero value if there is none *)
Definition view_of (cs : list vnode) (name : string) : vref :=
  match List.find (fun c => String.eqb (n_name c) name && is_view (n_target c)) cs with Some c => n_target c | None => VRef "" "" "" "" end.
(** visualize.go:297-351 *)
Definition draw_conn (cs : list vnode) (st : list string * picture) (k : vconn) : list string * picture :=
  if existsb (fun c => String.eqb (n_name c) (k_from k)) cs && existsb (fun c => String.eqb (n_name c) (k_to k)) cs then
    let r := view_of cs (k_from k) in
    let '(seen, p) := node_once st.1 r "lightcyan" st.2 in
    (seen, add_edge (ref_key r) (k_to k) (or_default "Watcher" (k_stype k)) (add_edge (k_from k) (ref_key r) (or_default "Updater" (k_ttype k)) p))
  else st.
Definition draw_conns (g : vgraph) (p : picture) : picture := (foldl (draw_conn (g_ctrls g)) ([], p) (g_conns g)).2.
(** visualize.go:191-354 BuildDotGraph *)
Definition draw (g : vgraph) : picture :=
  draw_conns g (draw_targets g (draw_sources (g_ctrls g) (draw_ctrls (g_ctrls g) (Picture ∅ [])))).
