(** Property C73: merging the objects of a projection on shared memory. *)
From Verif Require Import SliceModel SliceSpec JsonModel JsonSpec StageModel SliceProofs.
Local Open Scope string_scope.
Local Open Scope nat_scope.

(** ** C73 *)

(** Merging objects on memory gives what merging them as values gives, if the lists in their
    fields have no room for more, except that the first object may have lists with room, in
    arrays of their own: for these, [lim] says where the list ends.  All values that use no
    array beyond its limit stay as they were, also if they share arrays with the objects, and
    other arrays are not written at all.
    Partial: lists with room in several fields or in later objects are not covered; see
    C73_shared_refuted. *)
Theorem C73_merge_partial : forall grow lim h u us ju jus,
  within lim h u (JMap ju) -> own_room lim h u ->
  Forall2 (within lim h) us (map JMap jus) -> Forall (full h) us -> Forall (apart lim) us -> Forall owf (ju :: jus) ->
  let r := s_merge_all grow SNull (u :: us) h in
  (forall v j, within lim h v j -> reads r.1 v j)
  /\ (forall a l, lim a = None -> h !! a = Some l -> r.1 !! a = Some l)
  /\ match r.2, merge_objects JNull (ju :: jus) with Some v, Some j => reads r.1 v j | None, None => True | _, _ => False end.
Proof.
  intros grow lim h u us ju jus Hu [HO1 HO2] HU HF HA HW. cbv zeta. apply Forall_cons in HW. destruct HW as [Wu HW].
  destruct (good_init lim h (JMap ju) u Hu HO1) as [G1 G2].
  assert (HWh : Forall (whole lim h) us).
  { rewrite Forall_forall in *. intros v Hv. split; auto. }
  destruct (all_tracks lim h grow us jus HU HWh HW u (JMap ju) h Wu G1 ltac:(lia) (keeps_refl lim h)) as (A1 & A2 & A3); [rewrite G2; exact HO2|].
  change (s_merge_all grow SNull (u :: us) h) with (s_merge_all grow u us h). change (merge_objects JNull (ju :: jus)) with (merge_objects (JMap ju) jus).
  split; [|split; [|exact A3]].
  - intros v j Hv. eapply within_reads, within_keeps; eassumption.
  - intros a l El Ha. specialize (A1 a l Ha). rewrite El in A1. exact A1.
Qed.
Print Assumptions C73_merge_partial.

(** In particular, if no list in the fields has room for more, nothing that was in memory is
    changed.  The objects may share lists among each other, and one list may be in many fields. *)
Theorem C73_full : forall grow h us jus,
  Forall2 (reads h) us (map JMap jus) -> Forall (full h) us -> Forall owf jus ->
  let r := s_merge_all grow SNull us h in
  h `prefix_of` r.1
  /\ match r.2, merge_objects JNull jus with Some v, Some j => reads r.1 v j | None, None => True | _, _ => False end.
Proof.
  intros grow h us jus HU HF HW. cbv zeta.
  assert (P : forall v, apart no_limit v) by (intros v a n _; reflexivity).
  assert (HWh : Forall (whole no_limit h) us) by (rewrite Forall_forall in *; intros v Hv; split; auto).
  destruct (all_tracks no_limit h grow us jus HU HWh HW SNull JNull h) as (A1 & A2 & A3); [constructor| |lia|apply keeps_refl|constructor|].
  { apply good_old; [constructor|]. split; intros a n Hf; inversion Hf. }
  split; [|exact A3]. set (h1 := (s_merge_all grow SNull us h).1) in *. clearbody h1. clear - A1 A2.
  exists (drop (length h) h1). rewrite <- (take_drop (length h) h1) at 1. f_equal. apply list_eq. intros i.
  destruct (decide (i < length h)) as [L|L].
  - rewrite lookup_take by exact L. destruct (lookup_lt_is_Some_2 h i L) as [x Hx]. rewrite Hx. exact (A1 i x Hx).
  - rewrite lookup_take_ge, (lookup_ge_None_2 h) by lia. reflexivity.
Qed.
Print Assumptions C73_full.

(** A copy of a document reads as the document, and its lists have no room for more. *)
Theorem C73_copies : forall j h,
  let r := s_alloc j h in h `prefix_of` r.1 /\ reads r.1 r.2 j /\ forall p w, at_fields p r.2 = Some w -> full r.1 w.
Proof.
  intros j h. cbv zeta. destruct (alloc_ok j h) as (e & E & R & F). rewrite E. split; [apply prefix_app_r; reflexivity|]. split; [exact R|].
  intros p w Hp a n Hf. apply F. eapply field_trans; [eapply at_fields_of; exact Hp|exact Hf].
Qed.
Print Assumptions C73_copies.

(** So a projection of a document that was copied first may show its lists as often as it
    likes: the merge is right and leaves the copy as it was. *)
Theorem C73_parts : forall grow j h us jus,
  let c := s_alloc j h in
  Forall (shows_parts c.2) us -> Forall2 (reads c.1) us (map JMap jus) -> Forall owf jus ->
  let r := s_merge_all grow SNull us c.1 in
  c.1 `prefix_of` r.1 /\ reads r.1 c.2 j
  /\ match r.2, merge_objects JNull jus with Some v, Some j => reads r.1 v j | None, None => True | _, _ => False end.
Proof.
  intros grow j h us jus c HS HU HW r. destruct (C73_copies j h) as (_ & R & F).
  destruct (C73_full grow c.1 us jus HU) as [P1 P2]; [|exact HW|].
  { apply Forall_forall. intros u Hu. rewrite Forall_forall in HS. destruct (HS u Hu) as (m & -> & Hm).
    intros a n Hf. inversion Hf as [|m' k x w Hin Hx]; subst. destruct (Hm k x Hin) as [p Hp]. exact (F p x Hp a n Hx). }
  split; [exact P1|]. split; [|exact P2]. destruct P1 as [e P1]. change (reads (s_merge_all grow SNull us c.1).1 c.2 j). rewrite P1. apply reads_app, R.
Qed.
Print Assumptions C73_parts.

(** The list 1, 2, 3 with room for a fourth element; and 10; and 20. *)
Definition roomy : arrays := [[SInt 1; SInt 2; SInt 3; SNull]; [SInt 10]; [SInt 20]].
(** As above, without room. *)
Definition tight : arrays := [[SInt 1; SInt 2; SInt 3]; [SInt 10]; [SInt 20]].
(** The objects of the projection  [{a: $.l, b: $.l}, {a: [10], b: [20]}]. *)
Definition twice : list sval := [SMap [("a", SList 0 3); ("b", SList 0 3)]; SMap [("a", SList 1 1); ("b", SList 2 1)]].
Definition twice_j : list jobj :=
  [[("a", JList [JInt 1; JInt 2; JInt 3]); ("b", JList [JInt 1; JInt 2; JInt 3])]; [("a", JList [JInt 10]); ("b", JList [JInt 20])]].

(** False with room: both fields get the same fourth element, in the list that they share. *)
Theorem C73_shared_refuted :
  merge_objects JNull twice_j = Some (JMap [("a", JList [JInt 1; JInt 2; JInt 3; JInt 10]); ("b", JList [JInt 1; JInt 2; JInt 3; JInt 20])])
  /\ s_merge_all doubled SNull twice roomy = ([[SInt 1; SInt 2; SInt 3; SInt 20]; [SInt 10]; [SInt 20]], Some (SMap [("a", SList 0 4); ("b", SList 0 4)])).
Proof. vm_compute. split; reflexivity. Qed.
Print Assumptions C73_shared_refuted.

Ltac wf := repeat first [constructor | (apply jwf_map; [repeat (apply SSorted_cons || apply SSorted_nil || constructor)|]) ]; try reflexivity.
Ltac read := repeat first [apply within_int | (eapply within_list; [reflexivity|cbn; lia|intros n' E; first [discriminate E|injection E as <-; lia]|cbn]) | apply within_map | apply Forall2_nil_2 | (apply Forall2_cons_2; [first [split; [reflexivity|cbn [snd]]|idtac]|])].
Example ex_C73 :
  Forall2 (reads tight) twice (map JMap twice_j) /\ Forall owf twice_j
  /\ s_merge_all doubled SNull twice tight
     = ([[SInt 1; SInt 2; SInt 3]; [SInt 10]; [SInt 20]; [SInt 1; SInt 2; SInt 3; SInt 10; SNull; SNull]; [SInt 1; SInt 2; SInt 3; SInt 20; SNull; SNull]],
        Some (SMap [("a", SList 3 4); ("b", SList 4 4)])).
Proof.
  split; [|split; [|vm_compute; reflexivity]].
  - unfold twice, twice_j. cbn [map]. read.
  - unfold twice_j. repeat (apply Forall_cons_2; [wf|]). apply Forall_nil_2.
Qed.
Example ex_C73_full : Forall (full tight) twice.
Proof.
  unfold twice. repeat apply Forall_cons_2; try apply Forall_nil_2; intros a n Hf; inversion Hf as [|m k x w Hin Hx]; subst;
    repeat (apply elem_of_cons in Hin; destruct Hin as [E|Hin]; [injection E as -> ->; inversion Hx; subst; reflexivity|]); inversion Hin.
Qed.
(** The copy of {l: [1, 2, 3]}, and the objects of  [{a: $.l, b: $.l}, {a: $.l}]. *)
Example ex_C73_parts : let c := s_alloc (JMap [("l", JList [JInt 1; JInt 2; JInt 3])]) [] in
  c = ([[SInt 1; SInt 2; SInt 3]], SMap [("l", SList 0 3)])
  /\ Forall (shows_parts c.2) [SMap [("a", SList 0 3); ("b", SList 0 3)]; SMap [("a", SList 0 3)]]
  /\ s_merge_all doubled SNull [SMap [("a", SList 0 3); ("b", SList 0 3)]; SMap [("a", SList 0 3)]] c.1
     = ([[SInt 1; SInt 2; SInt 3]; [SInt 1; SInt 2; SInt 3; SInt 1; SInt 2; SInt 3]], Some (SMap [("a", SList 1 6); ("b", SList 0 3)])).
Proof.
  cbv zeta. split; [vm_compute; reflexivity|]. split; [|vm_compute; reflexivity].
  repeat apply Forall_cons_2; try apply Forall_nil_2; eexists; (split; [reflexivity|]); intros k x Hin;
    repeat (apply elem_of_cons in Hin; destruct Hin as [E|Hin]; [injection E as -> ->; exists ["l"]; vm_compute; reflexivity|]); inversion Hin.
Qed.
(** A list with room for more is what a merge makes: the projection  [{l: [1, 2]}, {l: [3]}]. *)
Example ex_C73_roomy :
  s_merge_all doubled SNull [SMap [("l", SList 0 2)]; SMap [("l", SList 1 1)]] [[SInt 1; SInt 2]; [SInt 3]]
  = ([[SInt 1; SInt 2]; [SInt 3]; [SInt 1; SInt 2; SInt 3; SNull]], Some (SMap [("l", SList 2 3)])).
Proof. vm_compute. reflexivity. Qed.
(** The projection  [$., {l: [10]}]  of {l: [1, 2, 3]} with room: the list is extended in
    place, and whoever shares it still sees three elements. *)
Definition room3 (a : nat) : option nat := match a with 0 => Some 3 | _ => None end.
Example ex_C73_room :
  within room3 roomy (SMap [("l", SList 0 3)]) (JMap [("l", JList [JInt 1; JInt 2; JInt 3])])
  /\ within room3 roomy (SMap [("l", SList 1 1)]) (JMap [("l", JList [JInt 10])])
  /\ own_room room3 roomy (SMap [("l", SList 0 3)]) /\ full roomy (SMap [("l", SList 1 1)]) /\ apart room3 (SMap [("l", SList 1 1)])
  /\ s_merge_all doubled SNull [SMap [("l", SList 0 3)]; SMap [("l", SList 1 1)]] roomy
     = ([[SInt 1; SInt 2; SInt 3; SInt 10]; [SInt 10]; [SInt 20]], Some (SMap [("l", SList 0 4)])).
Proof.
  split; [read|]. split; [read|]. split; [|split; [|split; [|vm_compute; reflexivity]]].
  - split; [|vm_compute; apply NoDup_singleton]. intros a n Hf. inversion Hf as [|m k x w Hin Hx]; subst.
    apply elem_of_list_singleton in Hin. injection Hin as -> ->. inversion Hx; subst. reflexivity.
  - intros a n Hf. inversion Hf as [|m k x w Hin Hx]; subst. apply elem_of_list_singleton in Hin. injection Hin as -> ->. inversion Hx; subst. reflexivity.
  - intros a n Hf. inversion Hf as [|m k x w Hin Hx]; subst. apply elem_of_list_singleton in Hin. injection Hin as -> ->. inversion Hx; subst. reflexivity.
Qed.
