(** Property C70: requests to the API server and writes by pipelines that overlap. *)
From Verif Require Import ViewModel ZSetSpec PipelineSpec GroupSpec ValueSpec JsonSpec ViewSpec StorageModel StorageSpec OverlapModel OverlapSpec.
From Verif Require Import JsonProofs ObjProofs ValueProofs GroupProofs ReconcileProofs ViewProofs ViewProofs2 WriterSpec WriterProofs PropsView StorageProofs PropsStorage OverlapProofs OverlapProofs2.

(** Whatever way the accesses of any number of calls interleave, if calls that overlap are
    about different objects, or only read, or bring whole new objects, then every call
    returned and did what it would have, had the calls been made one after the other on a
    plain map from kind, namespace and name to object, in the order of their last accesses.
    That order is that of time for calls that do not overlap.  Calls that are not over have
    had no effect.  Partial: no call removes a collection; as in C53, names with slashes,
    views of native kinds and negative zeros are left out. *)
Theorem C70_serial_partial : forall hash lister l s, lists_all lister -> Forall turn_ok l -> apart hash lister over0 l -> turns hash lister over0 l = Some s ->
  let '(w, expected) := ideal_acts hash ∅ (calls_over s) in
  Forall2 result_as (results_over s) expected
  /\ forall x ns name, is_view_kind x = true -> plain (ns, name) -> vc_get (o_cache s) x ns name = w !! (x, (ns, name)).
Proof.
  intros hash lister l s L F A E. assert (I := inv_run hash lister l over0 s (inv0 hash lister) F A E).
  assert (Fc : Forall sact_ok (calls_over s)) by (by eapply done_ok).
  assert (S := sacts_sim hash lister L (calls_over s) ∅ ∅ (sim_empty hash) Fc). assert (D := i_done _ _ _ I).
  destruct (sact_run hash lister ∅ (calls_over s)) as [[c es] rs]. destruct (ideal_acts hash ∅ (calls_over s)) as [w exps]. destruct S as (S1 & S2 & _).
  injection D as -> ->. split; [done|]. intros x ns name V Hp. by eapply vc_get_sim.
Qed.
Print Assumptions C70_serial_partial.

(** The same for one object, where calls about other objects may overlap in any way, and
    collections that it is not in may be removed. *)
Theorem C70_object_partial : forall hash lister o l s, lists_all lister -> plain o.2 -> is_view_kind o.1 = true -> Forall turn_ok l -> apart_on hash lister o over0 l ->
  turns hash lister over0 l = Some s ->
  let '(w, expected) := ideal_acts hash ∅ (map (fun d => d.1.2) (over_on o s)) in
  Forall2 result_as (map snd (over_on o s)) expected /\ vc_get (o_cache s) o.1 o.2.1 o.2.2 = w !! o.
Proof.
  intros hash lister o l s L Po V F A E. destruct (shadow_run hash lister L o Po l over0 over0 s (shadow0 hash lister o) F A E) as [r R].
  assert (Fc : Forall sact_ok (calls_over s)) by (by eapply done_ok).
  assert (Eo : map (fun d => d.1.2) (over_on o s) = calls_over r) by (unfold calls_over; by rewrite (h_done _ _ _ _ _ R)).
  assert (Er : map snd (over_on o s) = results_over r) by (unfold results_over; by rewrite (h_done _ _ _ _ _ R)). rewrite Eo, Er.
  assert (Fr : Forall sact_ok (calls_over r)). { rewrite <- Eo. unfold over_on, calls_over in *. rewrite Forall_map in *. rewrite Forall_forall in Fc |- *. intros d Hd. apply Fc. apply elem_of_list_In in Hd. apply filter_In in Hd as [Hd _]. by apply elem_of_list_In. }
  assert (S := sacts_sim hash lister L (calls_over r) ∅ ∅ (sim_empty hash) Fr). assert (D := i_done _ _ _ (h_inv _ _ _ _ _ R)).
  destruct (sact_run hash lister ∅ (calls_over r)) as [[c es] rs]. destruct (ideal_acts hash ∅ (calls_over r)) as [w exps]. destruct S as (S1 & S2 & _).
  injection D as -> ->. split; [done|]. destruct o as [x [ns name]]. cbn [fst snd] in *. rewrite <- (vc_get_sim hash (o_cache r) w x ns name) by done.
  unfold vc_get. rewrite V. assert (Ha := h_at _ _ _ _ _ R). unfold at_key in Ha. cbn [fst snd] in Ha. by rewrite Ha.
Qed.
Print Assumptions C70_object_partial.

(** However calls overlap, what is stored under a name is a whole object of that kind,
    namespace and name, with its UID. *)
Theorem C70_whole : forall hash lister l s x ns name m, lists_all lister -> Forall turn_ok l -> turns hash lister over0 l = Some s -> plain (ns, name) ->
  vc_get (o_cache s) x ns name = Some m -> get_gvk m = x /\ obj_id m = (ns, name) /\ stamp hash m = m /\ owf m.
Proof.
  intros hash lister l s x ns name m L F E Hp G. assert (I := fit_run hash lister L l over0 s (fit0 hash) F E). unfold vc_get in G. destruct (is_view_kind x); [|done].
  destruct (cache_of (o_cache s) x !! skey ns name) as [m'|] eqn:Em; [|done]. apply (f_vok _ _ I) in Em. assert (Ec := so_copy _ _ _ _ Em). cbn in G. rewrite Ec in G. injection G as ->.
  assert (Es := stored_source hash x (ns, name) m Hp Em). destruct Em. split_and!; try done. exact (f_equal snd Es).
Qed.
Print Assumptions C70_whole.

(** No call waits for others: however many there are, a call that only reads or brings a
    new object is over after one access, and any other that does not remove a collection
    after three. *)
Definition own_turns (i : nat) (l : list turn) : nat := length (List.filter (fun t => match t with Go j => Nat.eqb i j | _ => false end) l).
Theorem C70_wait_free : forall hash lister s i a s1 l s', collective a = false -> turn_step hash lister s (Begin i a) = Some s1 ->
  (forall b, ~ In (Begin i b) l) -> turns hash lister s1 l = Some s' ->
  let n := if reading a || posting a then 1%nat else 3%nat in
  (own_turns i l <= n)%nat /\ (own_turns i l = n -> o_open s' !! i = None).
Proof.
  intros hash lister s i a s1 l s' C E1 N E. cbn zeta. cbn [turn_step] in E1. destruct (o_open s !! i); [done|]. injection E1 as <-.
  eapply wait_run; [|exact N|exact E]. apply waits_settle. by apply once_begin.
Qed.
Print Assumptions C70_wait_free.

(** Data for the examples. *)
Definition gos (l : list nat) : list turn := map Go l.
Definition outcomes (l : list turn) : option (list (nat * sresult)) := (fun s => map (fun d => (d.1.1, d.2)) (o_done s)) <$> turns id_hash any_order over0 l.
Definition phases (l : list turn) : option (list (nat * list (option json))) := (fun s => map (fun d => (d.1.1, phase_of d.2)) (o_done s)) <$> turns id_hash any_order over0 l.
Definition left_open (l : list turn) : option nat := (fun s => size (o_open s)) <$> turns id_hash any_order over0 l.
Definition is_Some_b {A} (x : option A) : bool := match x with Some _ => true | None => false end.
(** A PATCH that sets one field of the spec. *)
Definition set_spec (f : string) (n : Z) : sact :=
  Api v_gvk (SUpdate (Some "x"%string) "a" (fun cur => match cur with Some m => Some (nested_set' m ["spec"; f] (JInt n)) | None => None end) fine fine2 false no_opts).
Definition spec_of (m : jobj) : list (option json) := [nested_get m ["spec"; "p"]; nested_get m ["spec"; "q"]].
Definition specs (l : list turn) : option (list (nat * list (list (option json)))) :=
  (fun s => map (fun d => (d.1.1, match d.2 with Reply r => map spec_of (shown r) | _ => [] end)) (o_done s)) <$> turns id_hash any_order over0 l.
Definition post_a : sact := Api v_gvk (SCreate (Some "x"%string) read_a fine no_opts).

(** Two objects are updated, one is deleted and created again, and all are listed, each in
    the middle of the others. *)
Definition busy : list turn :=
  [Begin 1 (post "x" "a" "1"); Begin 2 (post "x" "b" "2"); Go 2; Go 1;
   Begin 1 (put_phase "x" "a" "3"); Begin 2 (delete_it "x" "b"); Begin 3 (list_in None); Go 1; Go 2; Go 2; Go 1; Go 3;
   Begin 4 (get_it "x" "b"); Go 2; Go 4; Begin 5 (post "x" "b" "4"); Go 5; Begin 6 (list_in (Some "x"%string)); Go 1; Go 6].
Lemma put_phase_ok ns name phase : plain (ns, name) -> sact_ok (put_phase ns name phase).
Proof.
  intros P. split; [apply v_own|split; [apply v_gvk_ok|]]. split; [done|]. intros [cur|] m _; [|done]. intros [= <-]. split; [|unfold obj_id, get_namespace, get_name, nested_str; done].
  split_and!; [repeat constructor|repeat constructor|done].
Qed.
Example ex_C70 :
  Forall turn_ok busy /\ apart id_hash any_order over0 busy /\ left_open busy = Some 0%nat
  /\ phases busy = Some [(2%nat, [Some (JStr "2")]); (1%nat, [Some (JStr "1")]); (3%nat, [Some (JStr "2"); Some (JStr "1")]); (2%nat, [Some (JStr "2")]); (4%nat, []); (5%nat, [Some (JStr "4")]);
      (1%nat, [Some (JStr "3")]); (6%nat, [Some (JStr "4"); Some (JStr "3")])].
Proof.
  split_and!; [|apply apartb_spec; vm_compute; reflexivity|vm_compute; reflexivity|vm_compute; reflexivity].
  unfold busy. repeat (apply Forall_cons; split); try apply Forall_nil; try exact I; try (apply put_phase_ok; by vm_compute); try (split; [apply v_own|split; [apply v_gvk_ok|]]); try done;
    (split; [apply body_sendable|by vm_compute]).
Qed.

(** Racing updates of b do not matter for a; nor does removing a collection elsewhere. *)
Definition rough : list turn :=
  [Begin 1 (post "x" "a" "1"); Begin 2 (post "x" "b" "2"); Begin 3 (post "y" "a" "3"); Go 3; Go 2; Go 1;
   Begin 1 (put_phase "x" "a" "4"); Begin 2 (put_phase "x" "b" "5"); Begin 3 (delete_it "x" "b"); Begin 4 (Api v_gvk (SDeleteAll (Some "y"%string) fine None None no_opts));
   Go 2; Go 2; Go 3; Go 1; Go 4; Go 3; Go 3; Go 1; Go 2; Go 4; Go 1; Go 4; Begin 1 (get_it "x" "a"); Begin 2 (get_it "x" "b"); Go 1; Go 2].
Definition object_a : gvk * (string * string) := (v_gvk, ("x"%string, "a"%string)).
Example ex_C70_object :
  Forall turn_ok rough /\ apart_on id_hash any_order object_a over0 rough /\ plain object_a.2 /\ left_open rough = Some 0%nat
  /\ phases rough = Some [(3%nat, [Some (JStr "3")]); (2%nat, [Some (JStr "2")]); (1%nat, [Some (JStr "1")]); (3%nat, [Some (JStr "2")]); (2%nat, [Some (JStr "5")]); (1%nat, [Some (JStr "4")]);
      (4%nat, [Some (JStr "3")]); (1%nat, [Some (JStr "4")]); (2%nat, [Some (JStr "5")])]
  /\ (fun s => length (over_on object_a s)) <$> turns id_hash any_order over0 rough = Some 3%nat.
Proof.
  split_and!; [|apply apart_onb_spec; vm_compute; reflexivity|by vm_compute|vm_compute; reflexivity|vm_compute; reflexivity|vm_compute; reflexivity].
  unfold rough. repeat (apply Forall_cons; split); try apply Forall_nil; try exact I; try (apply put_phase_ok; by vm_compute); try (split; [apply v_own|split; [apply v_gvk_ok|]]); try done;
    (split; [apply body_sendable|by vm_compute]).
Qed.
(** The update of a is open until its third access, whatever the others do. *)
Example ex_C70_wait_free :
  collective (put_phase "x" "a" "4") = false /\ own_turns 1 (skipn 10 (firstn 20 rough)) = 2%nat /\ own_turns 1 (skipn 10 (firstn 21 rough)) = 3%nat
  /\ (fun s => is_Some_b (o_open s !! 1%nat)) <$> turns id_hash any_order over0 (firstn 20 rough) = Some true
  /\ (fun s => is_Some_b (o_open s !! 1%nat)) <$> turns id_hash any_order over0 (firstn 21 rough) = Some false.
Proof. split_and!; vm_compute; reflexivity. Qed.

(** Refuted: two PATCHes of different fields both take effect.  Both succeed, and the
    first change is lost; one after the other, in either order, they give both. *)
Theorem C70_lost_update_refuted :
  specs ([Begin 0 post_a; Go 0; Begin 1 (set_spec "p" 2); Begin 2 (set_spec "q" 2)] ++ gos [1; 2; 1; 1; 2; 2]%nat ++ [Begin 3 (get_it "x" "a"); Go 3])
  = Some [(0%nat, [[Some (JInt 1); Some (JInt 1)]]); (1%nat, [[Some (JInt 2); Some (JInt 1)]]); (2%nat, [[Some (JInt 1); Some (JInt 2)]]); (3%nat, [[Some (JInt 1); Some (JInt 2)]])]
  /\ specs ([Begin 0 post_a; Go 0; Begin 1 (set_spec "p" 2)] ++ gos [1; 1; 1]%nat ++ [Begin 2 (set_spec "q" 2)] ++ gos [2; 2; 2]%nat ++ [Begin 3 (get_it "x" "a"); Go 3])
  = Some [(0%nat, [[Some (JInt 1); Some (JInt 1)]]); (1%nat, [[Some (JInt 2); Some (JInt 1)]]); (2%nat, [[Some (JInt 2); Some (JInt 2)]]); (3%nat, [[Some (JInt 2); Some (JInt 2)]])]
  /\ specs ([Begin 0 post_a; Go 0; Begin 2 (set_spec "q" 2)] ++ gos [2; 2; 2]%nat ++ [Begin 1 (set_spec "p" 2)] ++ gos [1; 1; 1]%nat ++ [Begin 3 (get_it "x" "a"); Go 3])
  = Some [(0%nat, [[Some (JInt 1); Some (JInt 1)]]); (2%nat, [[Some (JInt 1); Some (JInt 2)]]); (1%nat, [[Some (JInt 2); Some (JInt 2)]]); (3%nat, [[Some (JInt 2); Some (JInt 2)]])].
Proof. split_and!; vm_compute; reflexivity. Qed.
Print Assumptions C70_lost_update_refuted.

(** Refuted: two controllers that patch different fields of a view both have their fields
    in it.  Both writes succeed, and the first field is lost. *)
Definition patch_spec (f : string) (n : Z) : sact := Write (VPatch (view "V" "x" "a" "1") [("spec"%string, JMap [(f, JInt n)])]).
Theorem C70_patchers_refuted :
  specs ([Begin 0 post_a; Go 0; Begin 1 (patch_spec "p" 2); Begin 2 (patch_spec "q" 2)] ++ gos [1; 2; 1; 2]%nat ++ [Begin 3 (get_it "x" "a"); Go 3])
  = Some [(0%nat, [[Some (JInt 1); Some (JInt 1)]]); (1%nat, []); (2%nat, []); (3%nat, [[Some (JInt 1); Some (JInt 2)]])]
  /\ (map (fun d => match d.2 with Wrote r => Some r | _ => None end) <$> outcomes ([Begin 0 post_a; Go 0; Begin 1 (patch_spec "p" 2); Begin 2 (patch_spec "q" 2)] ++ gos [1; 2; 1; 2]%nat)) = Some [None; Some VOk; Some VOk]
  /\ specs ([Begin 0 post_a; Go 0; Begin 1 (patch_spec "p" 2)] ++ gos [1; 1]%nat ++ [Begin 2 (patch_spec "q" 2)] ++ gos [2; 2]%nat ++ [Begin 3 (get_it "x" "a"); Go 3])
  = Some [(0%nat, [[Some (JInt 1); Some (JInt 1)]]); (1%nat, []); (2%nat, []); (3%nat, [[Some (JInt 2); Some (JInt 2)]])].
Proof. split_and!; vm_compute; reflexivity. Qed.
Print Assumptions C70_patchers_refuted.

(** Refuted: after a deletion that succeeded, an object is there only if somebody created
    it.  An update that began before brings it back. *)
Theorem C70_resurrect_refuted :
  phases ([Begin 0 (post "x" "a" "1"); Go 0; Begin 1 (put_phase "x" "a" "2"); Begin 2 (delete_it "x" "a")] ++ gos [1; 1; 2; 2; 2; 1]%nat ++ [Begin 3 (get_it "x" "a"); Go 3])
  = Some [(0%nat, [Some (JStr "1")]); (2%nat, [Some (JStr "1")]); (1%nat, [Some (JStr "2")]); (3%nat, [Some (JStr "2")])]
  /\ phases ([Begin 0 (post "x" "a" "1"); Go 0; Begin 1 (put_phase "x" "a" "2")] ++ gos [1; 1; 1]%nat ++ [Begin 2 (delete_it "x" "a")] ++ gos [2; 2; 2]%nat ++ [Begin 3 (get_it "x" "a"); Go 3])
  = Some [(0%nat, [Some (JStr "1")]); (1%nat, [Some (JStr "2")]); (2%nat, [Some (JStr "2")]); (3%nat, [])]
  /\ phases ([Begin 0 (post "x" "a" "1"); Go 0; Begin 2 (delete_it "x" "a")] ++ gos [2; 2; 2]%nat ++ [Begin 1 (put_phase "x" "a" "2"); Go 1; Begin 3 (get_it "x" "a"); Go 3])
  = Some [(0%nat, [Some (JStr "1")]); (2%nat, [Some (JStr "1")]); (1%nat, []); (3%nat, [])].
Proof. split_and!; vm_compute; reflexivity. Qed.
Print Assumptions C70_resurrect_refuted.

(** Refuted: of two deletions of one object, one finds nothing.  Both report success. *)
Theorem C70_twice_refuted :
  (map (fun d => match d.2 with Reply (SGone _) => true | _ => false end) <$> outcomes ([Begin 0 (post "x" "a" "1"); Go 0; Begin 1 (delete_it "x" "a"); Begin 2 (delete_it "x" "a")] ++ gos [1; 2; 1; 2; 1; 2]%nat))
  = Some [false; true; true].
Proof. vm_compute. reflexivity. Qed.
Print Assumptions C70_twice_refuted.

(** Refuted: an update of an object that gets deleted meanwhile is told that it is not
    there, or that there is a conflict.  The server reports an internal error. *)
Theorem C70_internal_refuted :
  (map (fun d => match d.2 with Reply SInternal => true | _ => false end) <$> outcomes ([Begin 0 (post "x" "a" "1"); Go 0; Begin 1 (put_phase "x" "a" "2"); Begin 2 (delete_it "x" "a")] ++ gos [1; 2; 2; 2; 1]%nat))
  = Some [false; false; true].
Proof. vm_compute. reflexivity. Qed.
Print Assumptions C70_internal_refuted.

(** Refuted: removing a collection removes only objects that are selected.  An object that
    an update takes out of the selection is removed all the same, although the update
    succeeds first; and a list sees part of the collection. *)
Definition in_phase (phase : string) : option (list (string * string) -> bool) := Some (fun l => existsb (fun kv => String.eqb kv.1 "status.phase" && String.eqb kv.2 phase) l).
Theorem C70_collection_refuted :
  phases ([Begin 0 (post "x" "a" "1"); Go 0; Begin 1 (Api v_gvk (SDeleteAll (Some "x"%string) fine None (in_phase "1") no_opts)); Begin 2 (put_phase "x" "a" "2")] ++ gos [1; 2; 2; 2; 1; 1]%nat
    ++ [Begin 3 (get_it "x" "a"); Go 3])
  = Some [(0%nat, [Some (JStr "1")]); (2%nat, [Some (JStr "2")]); (1%nat, [Some (JStr "1")]); (3%nat, [])]
  /\ phases ([Begin 0 (post "x" "a" "1"); Go 0; Begin 2 (put_phase "x" "a" "2")] ++ gos [2; 2; 2]%nat ++ [Begin 1 (Api v_gvk (SDeleteAll (Some "x"%string) fine None (in_phase "1") no_opts)); Go 1; Begin 3 (get_it "x" "a"); Go 3])
  = Some [(0%nat, [Some (JStr "1")]); (2%nat, [Some (JStr "2")]); (1%nat, []); (3%nat, [Some (JStr "2")])]
  /\ phases ([Begin 0 (post "x" "a" "1"); Go 0; Begin 0 (post "x" "b" "1"); Go 0; Begin 1 (Api v_gvk (SDeleteAll (Some "x"%string) fine None None no_opts))] ++ gos [1; 1; 1]%nat ++ [Begin 3 (list_in None); Go 3] ++ gos [1; 1]%nat)
  = Some [(0%nat, [Some (JStr "1")]); (0%nat, [Some (JStr "1")]); (3%nat, [Some (JStr "1")]); (1%nat, [Some (JStr "1"); Some (JStr "1")])].
Proof. split_and!; vm_compute; reflexivity. Qed.
Print Assumptions C70_collection_refuted.
