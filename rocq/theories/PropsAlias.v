(** C72: what users do with the objects that they hand to a view, or get from it, does not
    reach the view. *)
From Verif Require Import AliasModel AliasSpec AliasProofs AliasProofs2 AliasProofs3 ViewSpec ViewModel PropsView.
#[local] Arguments at_ : simpl never.

(** Whatever callers and handlers write, and whenever, to objects that they have handed over,
    received or been notified with: the view holds what the same calls leave in a cache of values,
    each with the arguments as they were when the call was made. *)
Theorem C72_cache : forall hash keys react l,
  Forall no_peek l ->
  let s := mrun hash keys react msys0 l in
  let v := vact_run hash (key_lister keys) vsys0 (calls hash keys react msys0 l) in
  m_objects s = vs_cache v /\ ms_handlers s = vs_handlers v.
Proof.
  intros hash keys react l Hl s v.
  destruct (run_like hash keys react (fun _ => True) (fun _ => or_introl I) l msys0 _ vsys0 (like0 _)) as (ρ & HI & Hh & _).
  { eapply Forall_impl; [exact Hl|]. intros a Ha. split; [exact Ha|]. destruct a as [| []| | | | | | | | | | | |]; exact I. }
  split; [symmetry; exact (inv_cache _ _ _ _ _ HI)|exact Hh].
Qed.

(** The same for an answer: it is what a cache of values would answer, in objects that nobody has got
    and that the view does not keep. *)
Definition stores (s : msys) (a : nat) : Prop := exists x st k, ms_store s !! x = Some st /\ st !! k = Some a.
Definition unknown (s : msys) (a : nat) : Prop := (forall u, (u, a) ∉ ms_held s) /\ ~ stores s a.
Theorem C72_answers : forall hash keys react l u x sel ns name,
  Forall no_peek l ->
  let s := mrun hash keys react msys0 l in
  let c := vs_cache (vact_run hash (key_lister keys) vsys0 (calls hash keys react msys0 l)) in
  (forall r, mstep hash keys react s (MGet u x ns name) = r ->
     map (at_ r.1) r.2 = match vc_get c x ns name with Some m => [m] | None => [] end /\ Forall (unknown s) r.2)
  /\ (forall r, mstep hash keys react s (MList u x sel) = r ->
     map (at_ r.1) r.2 = vc_list (key_lister keys) c x sel /\ Forall (unknown s) r.2).
Proof.
  intros hash keys react l u x sel ns name Hl s c.
  destruct (run_like hash keys react (fun _ => True) (fun _ => or_introl I) l msys0 _ vsys0 (like0 _)) as (ρ & HI & _ & _).
  { eapply Forall_impl; [exact Hl|]. intros a Ha. split; [exact Ha|]. destruct a as [| []| | | | | | | | | | | |]; exact I. }
  fold s in HI. fold c in HI.
  assert (U : forall a, (length (ms_mem s) <= a)%nat -> unknown s a).
  { intros a Ha. split.
    - intros u' Hu. apply (inv_held _ _ _ _ _ HI) in Hu. lia.
    - intros (y & st & k & Hy & Hk). destruct (inv_free _ _ _ _ _ HI _ _ _ _ Hy Hk). lia. }
  split; intros r <-; cbn [mstep].
  - pose proof (get_inv (fun _ => True) s ρ c _ x ns name Public HI) as H.
    assert (HB : forall b, snd (m_get s x ns name) = Some b -> b = length (ms_mem s)).
    { unfold m_get, copy_obj, new_obj. intros b. destruct (is_view_kind x); [|discriminate]. destruct (_ !! _); [|discriminate]. intros [= <-]. reflexivity. }
    destruct (m_get s x ns name) as [s1 [b|]]; cbn [fst snd] in *.
    + destruct H as (E & _). rewrite E. split; [reflexivity|]. constructor; [|constructor]. apply U. rewrite (HB b eq_refl). lia.
    + destruct H as [-> E]. rewrite E. split; [reflexivity|constructor].
  - destruct (list_inv keys (fun _ => True) Public s ρ c _ x sel HI) as (ρ1 & H).
    destruct (m_list keys s x sel) as [s1 bs]. destruct H as (I1 & K1 & Hv & Hf & _). cbn [fst snd].
    split; [|eapply Forall_impl; [exact Hf|]; intros b (_ & _ & Hb); apply U, Hb].
    rewrite <- Hv. apply map_ext. intros b. unfold at_. rewrite (proj1 (give_all_same u bs s1)). reflexivity.
Qed.

(** The events of a handler that does not write to what it gets show, at any later time and whatever all others
    do, the objects of the events: except, for an update, the old object. *)
Theorem C72_events_partial : forall hash keys react l i,
  Forall no_peek l -> reads_only react l i ->
  let s := mrun hash keys react msys0 l in
  let v := vact_run hash (key_lister keys) vsys0 (calls hash keys react msys0 l) in
  map (fun e => but_old (seen s e)) (ms_log s i) = map but_old (vs_log v i).
Proof.
  intros hash keys react l i Hl [Hr Hw] s v.
  destruct (run_like hash keys react (fun j => j <> i)) with (l := l) (s := msys0) (v := vsys0) (ρ := fun _ : nat => Public) as (ρ & HI & _ & _).
  { intros j. destruct (decide (j = i)) as [->|Hne]; [right; exact Hr|left; exact Hne]. }
  { apply like0. }
  { rewrite Forall_forall in *. intros a Ha. split; [exact (Hl a Ha)|]. specialize (Hw a Ha). destruct a as [| []| | | | | | | | | | | |]; try exact I. exact Hw. }
  fold s in HI. fold v in HI. pose proof (inv_log _ _ _ _ _ HI i (fun H => H eq_refl)) as H.
  induction H as [|e w es ws [_ Hs] _ IH]; [reflexivity|]. cbn [map]. rewrite IH. f_equal.
  destruct e as [a|o a|a], w as [w1|[w1|] [w2|]|w1|w1]; cbn in *; try contradiction; [subst; reflexivity| |subst; reflexivity].
  destruct Hs as [<- _]. reflexivity.
Qed.
(** If no handler writes to what it gets, the old objects are right as well. *)
Theorem C72_events : forall hash keys react l i,
  Forall no_peek l -> (forall j, reads_only react l j) ->
  let s := mrun hash keys react msys0 l in
  let v := vact_run hash (key_lister keys) vsys0 (calls hash keys react msys0 l) in
  map (seen s) (ms_log s i) = vs_log v i.
Proof.
  intros hash keys react l i Hl HR s v.
  destruct (run_like hash keys react (fun _ => False)) with (l := l) (s := msys0) (v := vsys0) (ρ := fun _ : nat => Public) as (ρ & HI & _ & _).
  { intros j. right. apply (HR j). }
  { apply like0. }
  { rewrite Forall_forall in *. intros a Ha. split; [exact (Hl a Ha)|].
    destruct a as [| [n|j] b m| | | | | | | | | | | |]; try exact I. destruct (HR j) as [_ Hw]. rewrite Forall_forall in Hw. exact (Hw _ Ha eq_refl). }
  fold s in HI. fold v in HI. pose proof (inv_log _ _ _ _ _ HI i (fun H => H)) as H.
  induction H as [|e w es ws [_ Hs] _ IH]; [reflexivity|]. cbn [map]. rewrite IH. f_equal.
  destruct e as [a|o a|a], w as [w1|[w1|] [w2|]|w1|w1]; cbn in *; try contradiction; [subst; reflexivity| |subst; reflexivity].
  destruct Hs as [<- Hf]. rewrite Hf by (intros j []). reflexivity.
Qed.

(** No call writes to an object that exists, if handlers do not. *)
Theorem C72_arguments : forall hash keys react s a,
  (forall i s e, react i s e = []) -> match a with MScribble _ _ _ => False | _ => True end ->
  forall b, (b < length (ms_mem s))%nat -> at_ (mstep hash keys react s a).1 b = at_ s b.
Proof.
  intros hash keys react s a Hr Ha b Hb. destruct (step_grows hash keys react Hr s a Ha) as [l E].
  unfold at_. rewrite E, lookup_app_l by exact Hb. reflexivity.
Qed.

(** Two callers and two handlers; the first handler overwrites whatever it gets. *)
Definition in_order (X : gset string) : list string := elements X.
Definition vandal (i : nat) (s : msys) (e : mevent) : list (nat * jobj) :=
  if decide (i = 0%nat) then
    match e with MAdd a | MDel a => [(a, view "V" "n" "a" "broken")] | MUpd o a => [(o, view "V" "n" "a" "broken"); (a, view "V" "n" "a" "broken")] end
  else [].
Definition quiet (i : nat) (s : msys) (e : mevent) : list (nat * jobj) := [].
Definition phase (m : jobj) : option json := nested_get m ["status"; "phase"]%string.
Definition phases (e : wevent) : list (option json) :=
  match e with WCreate m | WDelete m | WGeneric m => [phase m] | WUpdate o n => [o ≫= phase; n ≫= phase] end.
Definition scene : list mact :=
  [MListen v_gvk; MListen v_gvk; MNew (Caller 0) (view "V" "n" "a" "x"); MCreate (Caller 0) 0;
   MScribble (Caller 0) 0 (view "V" "n" "a" "later"); MGet (Caller 1) v_gvk "n" "a"; MScribble (Caller 1) 4 (view "V" "n" "a" "mine");
   MUpdate (Caller 0) 0; MScribble (Caller 0) 0 (view "V" "n" "a" "even later")].
Notation "'run' r l" := (mrun id_hash in_order r msys0 l) (at level 10, r at level 9, l at level 9).

Example ex_C72 :
  Forall no_peek scene
  /\ map phase (vc_list any_order (m_objects (run vandal scene)) v_gvk every) = [Some (JStr "later")]
  /\ map (fun e => phases (seen (run vandal scene) e)) (ms_log (run vandal scene) 0) = [[Some (JStr "broken")]; [Some (JStr "broken"); Some (JStr "broken")]]
  /\ map (fun e => phases (seen (run quiet scene) e)) (ms_log (run quiet scene) 1) = [[Some (JStr "x")]; [Some (JStr "x"); Some (JStr "later")]]
  /\ phase (at_ (run vandal scene) 4) = Some (JStr "mine").
Proof. split; [repeat constructor|]. vm_compute. repeat split. Qed.
Example ex_C72_readers : reads_only vandal scene 1 /\ (forall j, reads_only quiet scene j).
Proof.
  split; [split; [intros s e; reflexivity|repeat constructor]|]. intros j. split; [reflexivity|repeat constructor].
Qed.

(** Handlers of an update get the same old object: what one writes to it, the next one sees. *)
Theorem C72_old_refuted :
  reads_only vandal scene 1 /\ Forall no_peek scene
  /\ map (fun e => phases (seen (run vandal scene) e)) (ms_log (run vandal scene) 1) = [[Some (JStr "x")]; [Some (JStr "broken"); Some (JStr "later")]]
  /\ map phases (vs_log (vact_run id_hash (key_lister in_order) vsys0 (calls id_hash in_order vandal msys0 scene)) 1)
     = [[Some (JStr "x")]; [Some (JStr "x"); Some (JStr "later")]].
Proof. split; [split; [intros s e; reflexivity|repeat constructor]|]. split; [repeat constructor|]. vm_compute. repeat split. Qed.

(** The store of an informer hands out the objects of the view themselves: writing to one changes the view,
    without any event. *)
Theorem C72_store_refuted : let l := scene ++ [MPeek (Caller 1) v_gvk] in let l' := l ++ [MScribble (Caller 1) 6 (view "V" "n" "a" "hacked")] in
  map phase (vc_list any_order (m_objects (run quiet l)) v_gvk every) = [Some (JStr "later")]
  /\ map phase (vc_list any_order (m_objects (run quiet l')) v_gvk every) = [Some (JStr "hacked")]
  /\ length (ms_log (run quiet l') 1) = length (ms_log (run quiet l) 1)
  /\ calls id_hash in_order quiet msys0 l' = calls id_hash in_order quiet msys0 l.
Proof. vm_compute. repeat split. Qed.

Print Assumptions C72_cache.
Print Assumptions C72_answers.
Print Assumptions C72_events_partial.
Print Assumptions C72_events.
Print Assumptions C72_arguments.
Print Assumptions C72_old_refuted.
Print Assumptions C72_store_refuted.
