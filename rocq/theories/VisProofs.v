(** Proofs about the diagrams. *)
From Verif Require Import VisModel VisSpec.

(** *** Edges *)
Lemma once_edges seen r k p : p_edges (node_once seen r k p).2 = p_edges p.
Proof. unfold node_once. destruct (decide _); done. Qed.
Definition src_edges (c : vnode) : list (string * string * string) :=
  omap (fun s => if is_view s then None else Some (ref_key s, n_name c, or_default "Watcher" (r_type s))) (n_sources c).
Lemma source_edges c st s : p_edges (draw_source c st s).2 = p_edges st.2 ++ (if is_view s then [] else [(ref_key s, n_name c, or_default "Watcher" (r_type s))]).
Proof.
  unfold draw_source. destruct (is_view s); [by rewrite app_nil_r|]. pose proof (once_edges st.1 s "lightgreen" st.2) as E.
  destruct (node_once st.1 s "lightgreen" st.2) as [seen p]. cbn [snd] in E. cbn. by rewrite E.
Qed.
Lemma sources_edges_one c l : forall st, p_edges (foldl (draw_source c) st l).2 = p_edges st.2 ++ omap (fun s => if is_view s then None else Some (ref_key s, n_name c, or_default "Watcher" (r_type s))) l.
Proof.
  induction l as [|s l IH]; intros st; cbn [foldl omap list_omap]; [by rewrite app_nil_r|]. rewrite IH, source_edges, <- app_assoc. f_equal.
  cbn. by destruct (is_view s).
Qed.
Lemma sources_edges cs p : p_edges (draw_sources cs p) = p_edges p ++ concat (map src_edges cs).
Proof.
  unfold draw_sources. change (p_edges p) with (p_edges (([] : list string, p).2)). generalize (([] : list string), p). 
  induction cs as [|c cs IH]; intros st; cbn [foldl map concat]; [by rewrite app_nil_r|]. by rewrite IH, sources_edges_one, <- app_assoc.
Qed.
Definition tgt_edges (g : vgraph) (c : vnode) : list (string * string * string) :=
  if negb (is_view (n_target c)) || is_terminal g c then [(n_name c, ref_key (n_target c), or_default "Updater" (r_type (n_target c)))] else [].
Lemma targets_edges g p : p_edges (draw_targets g p) = p_edges p ++ concat (map (tgt_edges g) (g_ctrls g)).
Proof.
  unfold draw_targets. change (p_edges p) with (p_edges (([] : list string, p).2)). generalize (([] : list string), p). generalize (g_ctrls g) as cs.
  induction cs as [|c cs IH]; intros st; cbn [foldl map concat]; [by rewrite app_nil_r|]. rewrite IH, app_assoc. f_equal.
  unfold draw_target, tgt_edges. destruct (negb _ || _); [|by rewrite app_nil_r].
  match goal with |- context [node_once ?a ?b ?k ?d] => pose proof (once_edges a b k d) as E; destruct (node_once a b k d) as [seen q] end.
  cbn [snd] in E. cbn. by rewrite E.
Qed.
Definition conn_edges (cs : list vnode) (k : vconn) : list (string * string * string) :=
  if existsb (fun c => String.eqb (n_name c) (k_from k)) cs && existsb (fun c => String.eqb (n_name c) (k_to k)) cs
  then [(k_from k, ref_key (view_of cs (k_from k)), or_default "Updater" (k_ttype k)); (ref_key (view_of cs (k_from k)), k_to k, or_default "Watcher" (k_stype k))] else [].
Lemma conns_edges g p : p_edges (draw_conns g p) = p_edges p ++ concat (map (conn_edges (g_ctrls g)) (g_conns g)).
Proof.
  unfold draw_conns. change (p_edges p) with (p_edges (([] : list string, p).2)). generalize (([] : list string), p). generalize (g_conns g) as ks.
  induction ks as [|k ks IH]; intros st; cbn [foldl map concat]; [by rewrite app_nil_r|]. rewrite IH, app_assoc. f_equal.
  unfold draw_conn, conn_edges. destruct (_ && _); [|by rewrite app_nil_r].
  match goal with |- context [node_once ?a ?b ?k ?d] => pose proof (once_edges a b k d) as E; destruct (node_once a b k d) as [seen q] end.
  cbn [snd] in E. cbn. by rewrite E, <- app_assoc.
Qed.
Lemma ctrls_edges cs p : p_edges (draw_ctrls cs p) = p_edges p.
Proof. revert p. induction cs as [|c cs IH]; intros p; [done|]. unfold draw_ctrls in *. cbn [foldl]. by rewrite IH. Qed.
Lemma edges_draw g : p_edges (draw g) = concat (map src_edges (g_ctrls g)) ++ concat (map (tgt_edges g) (g_ctrls g)) ++ concat (map (conn_edges (g_ctrls g)) (g_conns g)).
Proof. unfold draw. by rewrite conns_edges, targets_edges, sources_edges, ctrls_edges, <- app_assoc. Qed.

Lemma elem_concat_map {A B} (f : A -> list B) (l : list A) x : x ∈ concat (map f l) <-> exists a, a ∈ l /\ x ∈ f a.
Proof.
  induction l as [|a l IH]; cbn [map concat]; [split; [intros H; by apply elem_of_nil in H|intros (a & H & _); by apply elem_of_nil in H]|].
  rewrite elem_of_app, IH. split.
  - intros [H|(b & Hb & H)]; [exists a; split; [left|done]|exists b; split; [by right|done]].
  - intros (b & [->|Hb]%elem_of_cons & H); [by left|right; eauto].
Qed.
Lemma elem_map {A B} (f : A -> B) (l : list A) x : x ∈ map f l <-> exists a, a ∈ l /\ x = f a.
Proof. change (map f l) with (f <$> l). rewrite elem_of_list_fmap. naive_solver. Qed.

(** *** Producers *)
Lemma producers_some cs : forall (m : gmap string (string * string)) k p, foldl (fun m c => if is_view (n_target c) then <[ref_key (n_target c) := (n_name c, r_type (n_target c))]> m else m) m cs !! k = Some p ->
  m !! k = Some p \/ exists c, c ∈ cs /\ is_view (n_target c) = true /\ ref_key (n_target c) = k /\ p = (n_name c, r_type (n_target c)).
Proof.
  induction cs as [|c cs IH]; intros m k p H; [by left|]. cbn [foldl] in H. apply IH in H as [H|(c' & Hc & H)]; [|right; exists c'; split; [by right|done]].
  destruct (is_view (n_target c)) eqn:E; [|by left]. apply lookup_insert_Some in H as [[<- <-]|[_ H]]; [|by left]. right. exists c. split; [left|done].
Qed.
Lemma producers_keep cs : forall (m : gmap string (string * string)) k, is_Some (m !! k) -> is_Some (foldl (fun m c => if is_view (n_target c) then <[ref_key (n_target c) := (n_name c, r_type (n_target c))]> m else m) m cs !! k).
Proof.
  induction cs as [|c cs IH]; intros m k H; [done|]. cbn [foldl]. apply IH. destruct (is_view _); [|done].
  destruct (decide (ref_key (n_target c) = k)) as [->|Hk]; [rewrite lookup_insert; by eexists|by rewrite lookup_insert_ne].
Qed.
Lemma producers_there cs : forall (m : gmap string (string * string)) c, c ∈ cs -> is_view (n_target c) = true ->
  is_Some (foldl (fun m c => if is_view (n_target c) then <[ref_key (n_target c) := (n_name c, r_type (n_target c))]> m else m) m cs !! ref_key (n_target c)).
Proof.
  induction cs as [|c' cs IH]; intros m c Hc Hv; [by apply elem_of_nil in Hc|]. apply elem_of_cons in Hc as [<-|Hc]; cbn [foldl]; [|by apply IH].
  rewrite Hv. apply producers_keep. rewrite lookup_insert. by eexists.
Qed.

Lemma names_exist cs c : c ∈ cs -> existsb (fun c' => String.eqb (n_name c') (n_name c)) cs = true.
Proof. intros H. apply existsb_exists. exists c. split; [by apply elem_of_list_In|]. by apply String.eqb_eq. Qed.
Lemma name_inj cs c c' : NoDup (map n_name cs) -> c ∈ cs -> c' ∈ cs -> n_name c = n_name c' -> c = c'.
Proof.
  induction cs as [|a cs IH]; intros Hn H H' E; [by apply elem_of_nil in H|]. cbn [map] in Hn. apply NoDup_cons in Hn as [Ha Hn].
  apply elem_of_cons in H as [->|H]; apply elem_of_cons in H' as [->|H']; [done| | |by apply IH].
  - destruct Ha. rewrite E. apply elem_map. by eauto.
  - destruct Ha. rewrite <- E. apply elem_map. by eauto.
Qed.
Lemma view_of_elem cs c : NoDup (map n_name cs) -> c ∈ cs -> is_view (n_target c) = true -> view_of cs (n_name c) = n_target c.
Proof.
  intros Hn Hc Hv. unfold view_of. destruct (List.find _ cs) as [c'|] eqn:E.
  - apply find_some in E as [Hi [Hq _]%andb_prop]. apply elem_of_list_In in Hi. apply String.eqb_eq in Hq. by rewrite (name_inj cs c' c).
  - apply elem_of_list_In in Hc. pose proof (find_none _ _ E _ Hc) as H. cbn in H. by rewrite Hv, String.eqb_refl in H.
Qed.
Lemma elem_connect cs k : k ∈ connect cs <-> exists c s p, c ∈ cs /\ s ∈ n_sources c /\ is_view s = true /\ producers cs !! ref_key s = Some p /\ k = VConn p.1 (n_name c) (r_kind s) p.2 (r_type s).
Proof.
  unfold connect. rewrite elem_concat_map. split.
  - intros (c & Hc & H). apply elem_of_list_omap in H as (s & Hs & H). destruct (is_view s) eqn:E; [|done].
    apply fmap_Some in H as (p & Hp & ->). eauto 10.
  - intros (c & s & p & Hc & Hs & Hv & Hp & ->). exists c. split; [done|]. apply elem_of_list_omap. exists s. split; [done|]. by rewrite Hv, Hp.
Qed.

(** *** The graph and the specification *)
Lemma ref_id r t : ref_key (build_ref r t) = id_of (res_of r).
Proof. done. Qed.
Lemma or_default_twice t : or_default "Watcher" (if decide (t = EmptyString) then "Watcher"%string else t) = (if decide (t = ""%string) then "Watcher"%string else t).
Proof. unfold or_default. destruct (decide (t = EmptyString)) as [->|H]; [done|]. by destruct (decide _). Qed.
Lemma names_build cs : map n_name (map build_node cs) = map v_name cs.
Proof. rewrite map_map. done. Qed.

Lemma prefix_spec sub s : String.prefix sub s = true <-> exists b, s = sub +:+ b.
Proof.
  revert s. induction sub as [|a sub IH]; intros s; [split; [by exists s|by destruct s]|]. destruct s as [|b s]; cbn [String.prefix].
  - split; [done|intros (x & Hx); done].
  - destruct (Ascii.ascii_dec a b) as [->|Hn]; [rewrite IH; split; intros (x & Hx); exists x; [by rewrite Hx|by injection Hx]|].
    split; [done|]. intros (x & Hx). injection Hx. congruence.
Qed.
Lemma contains_spec sub s : contains sub s = true <-> infix sub s.
Proof.
  induction s as [|c s IH]; cbn [contains].
  - rewrite orb_false_r, prefix_spec. split; [intros (b & Hb); exists "", b; done|]. intros (a & b & H). destruct a; [by exists b|done].
  - rewrite orb_true_iff, prefix_spec, IH. split.
    + intros [(b & Hb)|(a & b & ->)]; [exists "", b; done|exists (String c a), b; done].
    + intros (a & b & H). destruct a as [|a' a]; [left; by exists b|right]. injection H as -> ->. by exists a, b.
Qed.
Lemma is_view_spec r t : is_view (build_ref r t) = true <-> seems_view r.
Proof. unfold is_view, seems_view. by rewrite orb_true_iff, !contains_spec. Qed.

(** Every edge is a flow that is declared. *)
Lemma draw_sound name cs a b t : NoDup (map v_name cs) -> (a, b, t) ∈ p_edges (draw (build_graph name cs)) ->
  exists x y, a = id_of x /\ b = id_of y /\ (reads cs x y t \/ writes cs x y t).
Proof.
  intros Hn. rewrite edges_draw, !elem_of_app. intros [H|[H|H]].
  - apply elem_concat_map in H as (n & Hnn & H). cbn in Hnn. apply elem_map in Hnn as (c & Hc & ->). unfold src_edges in H. apply elem_of_list_omap in H as (s & Hs & H).
    cbn in Hs. apply elem_map in Hs as ([r t'] & Hr & ->). cbn [fst snd] in H. destruct (is_view _); [done|]. injection H as <- <- <-.
    exists (res_of r), (TCtrl (v_name c)). split_and!; [done|done|]. left. exists c, r, t'. split_and!; [done|done|done|done|]. apply or_default_twice.
  - apply elem_concat_map in H as (n & Hnn & H). cbn in Hnn. apply elem_map in Hnn as (c & Hc & ->). unfold tgt_edges in H. destruct (_ || _); [|by apply elem_of_nil in H].
    apply elem_of_list_singleton in H. injection H as -> -> ->. exists (TCtrl (v_name c)), (res_of (v_target c).1). split_and!; [done|done|]. right. exists c. done.
  - apply elem_concat_map in H as (k & Hk & H). apply elem_connect in Hk as (n & s & p & Hnn & Hs & Hv & Hp & ->). 
    apply producers_some in Hp as [Hp|(n' & Hn' & Hv' & Hk & ->)]; [by rewrite lookup_empty in Hp|]. unfold conn_edges in H.
    cbn [k_from k_to k_ttype k_stype fst snd] in H. cbn [g_ctrls build_graph] in H. rewrite view_of_elem in H by (done || by rewrite names_build).
    apply elem_map in Hnn as (c & Hc & ->). apply elem_map in Hn' as (c' & Hc' & ->). destruct (_ && _); [|by apply elem_of_nil in H].
    cbn in Hs. apply elem_map in Hs as ([r t'] & Hr & ->). cbn [fst snd] in *. repeat rewrite elem_of_cons in H. destruct H as [H|[H|H]]; [| |by apply elem_of_nil in H]; injection H as -> -> ->.
    + exists (TCtrl (v_name c')), (res_of (v_target c').1). split_and!; [done|done|]. right. exists c'. done.
    + exists (res_of r), (TCtrl (v_name c)). split_and!; [exact Hk|done|]. left. exists c, r, t'. split_and!; [done|done|done|done|]. apply or_default_twice.
Qed.

(** *** Identifiers *)
Lemma slash_cons c s : has_slash (String c s) = bool_decide (c = "/"%char) || has_slash s.
Proof. unfold has_slash. cbn [split_slash]. destruct (decide (c = "/"%char)) as [->|H]; [done|]. rewrite bool_decide_eq_false_2 by done. by destruct (split_slash s) as [[u v]|]. Qed.
Lemma has_slash_spec a b : has_slash (a +:+ String "/" b) = true.
Proof.
  induction a as [|x a IH]; [change (has_slash (String "/" b) = true)|change (has_slash (String x (a +:+ String "/" b)) = true)]; rewrite slash_cons; [done|]. rewrite IH. by rewrite orb_true_r.
Qed.
Lemma slash_split a b a' b' : has_slash a = false -> has_slash a' = false -> a +:+ String "/" b = a' +:+ String "/" b' -> a = a' /\ b = b'.
Proof.
  revert a'. induction a as [|x a IH]; intros a' Ha Ha' E; destruct a' as [|y a'].
  - by injection E.
  - injection E as <- E. by rewrite slash_cons in Ha'.
  - injection E as -> E. by rewrite slash_cons in Ha.
  - injection E as -> E. rewrite slash_cons in Ha, Ha'. apply orb_false_iff in Ha as [_ Ha], Ha' as [_ Ha']. by destruct (IH a' Ha Ha' E) as [-> ->].
Qed.
Lemma id_inj r r' : slash_free r -> slash_free r' -> id_of (res_of r) = id_of (res_of r') -> res_of r = res_of r'.
Proof.
  intros (H1 & H2 & H3) (H1' & H2' & H3') E. cbn [id_of res_of] in E. apply slash_split in E as [E1 E]; [|done|done]. apply slash_split in E as [E2 E]; [|done|done].
  unfold res_of. by rewrite E1, E2, E.
Qed.
Lemma id_distinct n r : has_slash n = false -> id_of (TCtrl n) <> id_of (res_of r).
Proof. intros H E. cbn [id_of res_of] in E. pose proof (has_slash_spec (default ""%string (s_group r)) (default ""%string (s_version r) +:+ String "/" (s_kind r))) as H'. rewrite E in H. exact (eq_true_false_abs _ H' H). Qed.
Lemma seems_res r r' : res_of r = res_of r' -> seems_view r -> seems_view r'.
Proof. unfold seems_view. intros E. injection E as E1 E2 E3. by rewrite E1, E3. Qed.

(** A view that is read is connected. *)
Lemma conn_there name cs c r t : well_named cs -> one_writer cs -> c ∈ cs -> (r, t) ∈ v_sources c -> seems_view r ->
  forall c', c' ∈ cs -> res_of (v_target c').1 = res_of r ->
  VConn (v_name c') (v_name c) (s_kind r) (v_target c').2 (if decide (t = EmptyString) then "Watcher"%string else t) ∈ g_conns (build_graph name cs).
Proof.
  intros Hw Ho Hc Hr Hv c' Hc' E. cbn [g_conns build_graph]. apply elem_connect.
  exists (build_node c), (build_ref r (if decide (t = EmptyString) then "Watcher"%string else t)), (v_name c', (v_target c').2).
  assert (seems_view (v_target c').1) as Hv' by (by eapply seems_res).
  split_and!; [apply elem_map; by eauto|cbn; apply elem_map; by exists (r, t)|by apply is_view_spec| |done].
  destruct (producers_there (map build_node cs) ∅ (build_node c')) as [p Hp]; [apply elem_map; by eauto|by apply is_view_spec|].
  cbn [n_target build_node] in Hp. rewrite ref_id, E in Hp. rewrite ref_id. unfold producers. rewrite Hp. f_equal.
  apply producers_some in Hp as [Hp|(n & Hn & Hvn & Hk & ->)]; [by rewrite lookup_empty in Hp|]. apply elem_map in Hn as (c'' & Hc'' & ->).
  cbn [n_target build_node] in Hk. rewrite ref_id in Hk.
  assert (res_of (v_target c'').1 = res_of r) as E' by (eapply id_inj; [by apply (wn_targets _ Hw)|by apply (wn_sources _ Hw c r t)|done]).
  rewrite (Ho c' c''); [done|done|done|done|]. by rewrite E, E'.
Qed.
Lemma conn_shown name cs c r t : well_named cs -> one_writer cs -> c ∈ cs -> (r, t) ∈ v_sources c -> seems_view r ->
  forall c', c' ∈ cs -> res_of (v_target c').1 = res_of r ->
  (id_of (TCtrl (v_name c')), id_of (res_of r), if decide ((v_target c').2 = ""%string) then "Updater"%string else (v_target c').2) ∈ p_edges (draw (build_graph name cs))
  /\ (id_of (res_of r), id_of (TCtrl (v_name c)), if decide (t = ""%string) then "Watcher"%string else t) ∈ p_edges (draw (build_graph name cs)).
Proof.
  intros Hw Ho Hc Hr Hv c' Hc' E. pose proof (conn_there name cs c r t Hw Ho Hc Hr Hv c' Hc' E) as Hk.
  assert (forall x, x ∈ conn_edges (g_ctrls (build_graph name cs)) (VConn (v_name c') (v_name c) (s_kind r) (v_target c').2 (if decide (t = EmptyString) then "Watcher"%string else t)) -> x ∈ p_edges (draw (build_graph name cs))) as Hx.
  { intros x Hx. rewrite edges_draw, !elem_of_app. right. right. apply elem_concat_map. eauto. }
  assert (seems_view (v_target c').1) as Hv' by (by eapply seems_res).
  unfold conn_edges in Hx. cbn [k_from k_to k_ttype k_stype g_ctrls build_graph] in Hx.
  pose proof (names_exist (map build_node cs) (build_node c') ltac:(apply elem_map; by eauto)) as N1.
  pose proof (names_exist (map build_node cs) (build_node c) ltac:(apply elem_map; by eauto)) as N2.
  cbn [n_name build_node] in N1, N2. rewrite N1, N2 in Hx. cbn [andb] in Hx.
  pose proof (view_of_elem (map build_node cs) (build_node c')) as V. cbn [n_name n_target build_node] in V.
  rewrite V in Hx; [|rewrite names_build; by apply Hw|apply elem_map; by eauto|by apply is_view_spec].
  rewrite ref_id, E, or_default_twice in Hx. split; apply Hx; [left|right; left].
Qed.
Lemma draw_complete name cs x y t : well_named cs -> one_writer cs -> own_views cs -> reads cs x y t \/ writes cs x y t -> pictured (draw (build_graph name cs)) x y t.
Proof.
  intros Hw Ho Hown [(c & r & t' & Hc & Hr & -> & -> & ->)|(c & Hc & -> & -> & ->)]; unfold pictured.
  - destruct (is_view (build_ref r t')) eqn:E.
    + pose proof E as Hv. apply is_view_spec in Hv. destruct (Hown c r t' Hc Hr Hv) as (c' & Hc' & E'). by apply (conn_shown name cs c r t' Hw Ho Hc Hr Hv c').
    + rewrite edges_draw, !elem_of_app. left. apply elem_concat_map. exists (build_node c). split; [apply elem_map; by eauto|]. unfold src_edges. apply elem_of_list_omap.
      exists (build_ref r (if decide (t' = EmptyString) then "Watcher"%string else t')). split; [cbn; apply elem_map; by exists (r, t')|].
      change (is_view (build_ref r (if decide (t' = EmptyString) then "Watcher"%string else t'))) with (is_view (build_ref r t')). rewrite E. cbn [r_type build_ref n_name build_node]. by rewrite or_default_twice.
  - destruct (negb (is_view (n_target (build_node c))) || is_terminal (build_graph name cs) (build_node c)) eqn:E.
    + rewrite edges_draw, !elem_of_app. right. left. apply elem_concat_map. exists (build_node c). split; [cbn; apply elem_map; by eauto|]. unfold tgt_edges. rewrite E. left.
    + apply orb_false_iff in E as [E1 E2]. apply negb_false_iff in E1. unfold is_terminal in E2. rewrite E1 in E2. cbn [andb] in E2. apply negb_false_iff in E2.
      apply existsb_exists in E2 as (n & Hn & E2). apply existsb_exists in E2 as (s & Hs & E2). apply andb_prop in E2 as [Ev Ek]. apply String.eqb_eq in Ek.
      apply elem_of_list_In in Hn, Hs. cbn [g_ctrls build_graph] in Hn. apply elem_map in Hn as (c' & Hc' & ->). cbn [n_sources build_node] in Hs. apply elem_map in Hs as ([r t'] & Hr & ->).
      cbn [fst snd] in Ev, Ek. apply is_view_spec in Ev. cbn [n_target build_node] in Ek. rewrite !ref_id in Ek.
      apply id_inj in Ek; [|by apply (wn_sources _ Hw c' r t')|by apply (wn_targets _ Hw)]. rewrite <- Ek. by apply (conn_shown name cs c' r t' Hw Ho Hc' Hr Ev c Hc).
Qed.

(** *** Nodes *)
Lemma length_app a b : String.length (a +:+ b) = (String.length a + String.length b)%nat.
Proof. induction a as [|x a IH]; [done|]. change (S (String.length (a +:+ b)) = S (String.length a + String.length b))%nat. by rewrite IH. Qed.
Lemma substring_head a b : String.substring 0 (String.length a) (a +:+ b) = a.
Proof. induction a as [|x a IH]; [by destruct b|]. change (String x (String.substring 0 (String.length a) (a +:+ b)) = String x a). by rewrite IH. Qed.
Lemma substring_tail a b : String.substring (String.length a) (String.length b) (a +:+ b) = b.
Proof.
  induction a as [|x a IH]; [|exact IH]. change (String.substring 0 (String.length b) b = b).
  induction b as [|y b IH]; [done|]. change (String y (String.substring 0 (String.length b) b) = String y b). by rewrite IH.
Qed.
Lemma trim_back op : trim_suffix ": ..." (op +:+ ": ...") = op.
Proof.
  unfold trim_suffix, has_suffix. rewrite length_app.
  replace (String.length op + String.length ": ..." - String.length ": ...")%nat with (String.length op) by lia. rewrite substring_tail.
  rewrite substring_head, String.eqb_refl, (proj2 (Nat.leb_le _ _)) by lia. done.
Qed.

Lemma arrows_same l : join_arrow (map (trim_suffix ": ...") (stage_names l)) = arrows l.
Proof.
  induction l as [|x l IH]; [done|]. destruct l as [|y l]; [cbn [stage_names map join_arrow arrows]; apply trim_back|].
  change (trim_suffix ": ..." (x +:+ ": ...") +:+ " -> " +:+ join_arrow (map (trim_suffix ": ...") (stage_names (y :: l))) = x +:+ " -> " +:+ arrows (y :: l)).
  by rewrite IH, trim_back.
Qed.
Lemma label_ctrl c : ctrl_label (build_node c) = ctrl_text c.
Proof.
  unfold ctrl_label, ctrl_text. cbn [n_stages build_node n_name]. pose proof (arrows_same (v_ops c)) as E. destruct (v_ops c) as [|x l]; [done|].
  change (v_name c +:+ ": " +:+ join_arrow (map (trim_suffix ": ...") (stage_names (x :: l))) = v_name c +:+ ": " +:+ arrows (x :: l)). by rewrite E.
Qed.
Lemma label_ref r t : format_ref (build_ref r t) = res_text r.
Proof.
  unfold format_ref, res_text. cbn [r_group r_version r_kind build_ref].
  by destruct (decide (default EmptyString (s_group r) = EmptyString)), (decide (default EmptyString (s_version r) = EmptyString)).
Qed.

Section Nodes.
Context (name : string) (cs : list vctrl).
Local Notation g := (build_graph name cs).
Local Notation used_res := (mentioned cs).
Definition labelled (id lab : string) : Prop := (exists c, c ∈ cs /\ id = v_name c /\ lab = ctrl_text c) \/ exists r, used_res r /\ id = id_of (res_of r) /\ lab = res_text r.
Definition nodes_ok (p : picture) : Prop :=
  (forall id lab col, p_nodes p !! id = Some (lab, col) -> labelled id lab) /\ (forall a b t, (a, b, t) ∈ p_edges p -> is_Some (p_nodes p !! a) /\ is_Some (p_nodes p !! b))
  /\ forall c, c ∈ cs -> is_Some (p_nodes p !! v_name c).
Definition pair_ok (st : list string * picture) : Prop := nodes_ok st.2 /\ forall k, k ∈ st.1 -> is_Some (p_nodes st.2 !! k).

Lemma insert_some {A} (m : gmap string A) i j x : is_Some (m !! j) -> is_Some (<[i := x]> m !! j).
Proof. intros H. destruct (decide (i = j)) as [->|Hn]; [rewrite lookup_insert; by eexists|by rewrite lookup_insert_ne]. Qed.
Lemma once_ok st r t col : pair_ok st -> used_res r -> pair_ok (node_once st.1 (build_ref r t) col st.2) /\ is_Some (p_nodes (node_once st.1 (build_ref r t) col st.2).2 !! id_of (res_of r)).
Proof.
  intros [(H1 & H2 & H3) Hs] Hr. unfold node_once. rewrite ref_id, label_ref. destruct (decide _) as [Hi|Hi]; [split; [by split_and!|by apply Hs]|].
  unfold pair_ok, nodes_ok. cbn [fst snd set_node p_nodes p_edges]. split; [|rewrite lookup_insert; by eexists]. split; [split_and!|].
  - intros id lab c' E. apply lookup_insert_Some in E as [[<- E]|[_ E]]; [injection E as <- <-; right; eauto|by eapply H1].
  - intros a b l Hl. destruct (H2 a b l Hl). split; by apply insert_some.
  - intros c Hc. apply insert_some. by apply H3.
  - intros k [->|Hk]%elem_of_cons; cbn; [rewrite lookup_insert; by eexists|apply insert_some; by apply Hs].
Qed.
Lemma edge_ok p a b t : nodes_ok p -> is_Some (p_nodes p !! a) -> is_Some (p_nodes p !! b) -> nodes_ok (add_edge a b t p).
Proof.
  intros (H1 & H2 & H3) Ha Hb. split_and!; [done| |done]. cbn. intros a' b' t' [H|H]%elem_of_app; [by eapply H2|]. apply elem_of_list_singleton in H. by injection H as -> -> ->.
Qed.
Lemma ctrls_ok : nodes_ok (draw_ctrls (g_ctrls g) (Picture ∅ [])).
Proof.
  assert (forall l p, (forall c, c ∈ l -> c ∈ cs) -> p_edges p = [] -> (forall id lab col, p_nodes p !! id = Some (lab, col) -> labelled id lab) ->
    (forall id lab col, p_nodes (draw_ctrls (map build_node l) p) !! id = Some (lab, col) -> labelled id lab) /\ (forall c, c ∈ l -> is_Some (p_nodes (draw_ctrls (map build_node l) p) !! v_name c))
    /\ forall id, is_Some (p_nodes p !! id) -> is_Some (p_nodes (draw_ctrls (map build_node l) p) !! id)) as H.
  { induction l as [|c l IH]; intros p Hl He Hp; [split_and!; [done|intros c Hc; by apply elem_of_nil in Hc|done]|].
    destruct (IH (set_node (v_name c) (ctrl_label (build_node c)) "lightblue" p)) as (I1 & I2 & I3); [intros c' Hc'; apply Hl; by right|done| |].
    - intros id lab col E. cbn in E. apply lookup_insert_Some in E as [[<- E]|[_ E]]; [|by eapply Hp]. rewrite label_ctrl in E. injection E as <- <-. left. exists c. split_and!; [apply Hl; left|done|done].
    - split_and!; [exact I1| |].
      + intros c' [->|Hc']%elem_of_cons; [|by apply I2]. apply I3. cbn. rewrite lookup_insert. by eexists.
      + intros id Hi. apply I3. cbn. by apply insert_some. }
  destruct (H cs (Picture ∅ [])) as (H1 & H2 & _); [done|done|intros id lab col E; cbn in E; by rewrite lookup_empty in E|].
  split_and!; [exact H1| |exact H2]. intros a b t Hi. cbn [g_ctrls build_graph] in Hi. rewrite ctrls_edges in Hi. cbn in Hi. by apply elem_of_nil in Hi.
Qed.
Lemma foldl_ok {A} (f : list string * picture -> A -> list string * picture) (l : list A) : (forall st x, x ∈ l -> pair_ok st -> pair_ok (f st x)) -> forall st, pair_ok st -> pair_ok (foldl f st l).
Proof.
  induction l as [|x l IH]; intros Hf st Hs; [done|]. cbn [foldl]. apply IH; [intros st' y Hy; apply Hf; by right|]. apply Hf; [left|done].
Qed.
Lemma node_there st c : pair_ok st -> c ∈ cs -> is_Some (p_nodes st.2 !! v_name c).
Proof. intros [(_ & _ & H) _] Hc. by apply H. Qed.
Lemma sources_ok p : nodes_ok p -> nodes_ok (draw_sources (g_ctrls g) p).
Proof.
  intros Hp. unfold draw_sources. apply foldl_ok; [|split; [done|intros k Hk; by apply elem_of_nil in Hk]].
  intros st n Hn Hs. cbn [g_ctrls build_graph] in Hn. apply elem_map in Hn as (c & Hc & ->). apply foldl_ok; [|done]. clear st Hs.
  intros st s Hi Hs. cbn [n_sources build_node] in Hi. apply elem_map in Hi as ([r t] & Hr & ->). cbn [fst snd]. unfold draw_source. destruct (is_view _); [done|].
  destruct (once_ok st r (if decide (t = EmptyString) then "Watcher"%string else t) "lightgreen" Hs) as [O1 O2]; [exists c; split; [done|left; eauto]|].
  destruct (node_once _ _ _ _) as [seen q]. cbn [snd] in O2. pose proof (node_there _ c O1 Hc) as O3. destruct O1 as [O1 O4]. split; [|exact O4]. cbn [snd]. by apply edge_ok.
Qed.
Lemma targets_ok p : nodes_ok p -> nodes_ok (draw_targets g p).
Proof.
  intros Hp. unfold draw_targets. apply foldl_ok; [|split; [done|intros k Hk; by apply elem_of_nil in Hk]].
  intros st n Hn Hs. cbn [g_ctrls build_graph] in Hn. apply elem_map in Hn as (c & Hc & ->). unfold draw_target. destruct (_ || _); [|done].
  match goal with |- context [node_once _ _ ?k _] => destruct (once_ok st (v_target c).1 (v_target c).2 k Hs) as [O1 O2]; [exists c; split; [done|by right]|] end.
  cbn [n_target build_node]. destruct (node_once _ _ _ _) as [seen q]. cbn [snd] in O2. pose proof (node_there _ c O1 Hc) as O3. destruct O1 as [O1 O4]. split; [|exact O4]. cbn [snd]. by apply edge_ok.
Qed.
Lemma conns_ok p : NoDup (map v_name cs) -> nodes_ok p -> nodes_ok (draw_conns g p).
Proof.
  intros Hd Hp. unfold draw_conns. apply foldl_ok; [|split; [done|intros k Hk; by apply elem_of_nil in Hk]].
  intros st k Hk Hs. cbn [g_conns build_graph] in Hk. apply elem_connect in Hk as (n & s & x & Hn & Hi & Hv & Hx & ->).
  apply producers_some in Hx as [Hx|(n' & Hn' & Hv' & _ & ->)]; [by rewrite lookup_empty in Hx|]. unfold draw_conn. destruct (_ && _); [|done].
  cbn [k_from k_to k_ttype k_stype fst snd g_ctrls build_graph]. rewrite view_of_elem by (done || by rewrite names_build).
  apply elem_map in Hn as (c & Hc & ->). apply elem_map in Hn' as (c' & Hc' & ->).
  match goal with |- context [node_once _ _ ?k _] => destruct (once_ok st (v_target c').1 (v_target c').2 k Hs) as [O1 O2]; [exists c'; split; [done|by right]|] end.
  cbn [n_target build_node]. destruct (node_once _ _ _ _) as [seen q]. cbn [snd] in O2. pose proof (node_there _ c O1 Hc) as O3. pose proof (node_there _ c' O1 Hc') as O5. destruct O1 as [O1 O4]. split; [|exact O4]. cbn [snd].
  apply edge_ok; [by apply edge_ok|done|done].
Qed.
Lemma draw_nodes : NoDup (map v_name cs) -> nodes_ok (draw g).
Proof. intros Hd. unfold draw. apply conns_ok; [done|]. apply targets_ok, sources_ok, ctrls_ok. Qed.
End Nodes.
