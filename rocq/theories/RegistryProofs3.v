From Verif Require Import RegistryModel RegistrySpec GroupProofs RegistryProofs RegistryProofs2.

(** *** Other groups *)
Section frame.
Variable servable : gvk -> bool.
Definition lists_own (c : rcall) : Prop := match c with RegisterGroup g l => forall x, x ∈ l -> gvk_group x = g | _ => True end.
Definition concerns (c : rcall) (g : string) : Prop :=
  match c with RegisterGroup g' _ | UnregisterGroup g' => g' = g | RegisterGVKs o _ | UnregisterGVKs o _ => g ∈ o end.
Definition reg_own (s : apiserver) : Prop := forall g l, registered s !! g = Some l -> forall x, x ∈ l -> gvk_group x = g.

Lemma add_storages_other l g v r : (forall x, x ∈ l -> gvk_group x <> g) -> forall s, (add_storages servable s l).1 !! (g, v, r) = s !! (g, v, r).
Proof.
  induction l as [|x l IH]; intros H s; [done|]. cbn [add_storages].
  assert (H' : forall x, x ∈ l -> gvk_group x <> g) by (intros; apply H; by right).
  destruct (find_resource x); [|by apply IH]. destruct (servable x); [|done]. rewrite IH by done.
  apply lookup_insert_ne. unfold gvr_of. intros [= Q _ _]. apply (H x); [left|done].
Qed.
Lemma remove_storages_other l g v r : (forall x, x ∈ l -> gvk_group x <> g) -> forall s, remove_storages s l !! (g, v, r) = s !! (g, v, r).
Proof.
  induction l as [|x l IH]; intros H s; [done|]. cbn [remove_storages].
  assert (H' : forall x, x ∈ l -> gvk_group x <> g) by (intros; apply H; by right).
  rewrite IH by done. destruct (find_resource x); [|done]. apply lookup_delete_ne. unfold gvr_of. intros [= Q _ _]. apply (H x); [left|done].
Qed.
Lemma register_group_other s g l : (forall x, x ∈ l -> gvk_group x = g) -> reg_own s ->
  reg_own (register_group servable s g l).1 /\ forall g' v r, g' <> g -> storage (register_group servable s g l).1 !! (g', v, r) = storage s !! (g', v, r).
Proof.
  intros H R. unfold register_group. destruct (negb (is_view_group g)); [done|].
  destruct (add_types_to_scheme (scheme s) l) as [sch [|]]; [|done]. cbn [negb storage].
  assert (A : forall g' v r, g' <> g -> (add_storages servable (storage s) l).1 !! (g', v, r) = storage s !! (g', v, r)).
  { intros g' v r N. apply add_storages_other. intros x Hx. rewrite (H x Hx). done. }
  destruct (add_storages servable (storage s) l) as [st [|]]; [|done]. cbn [negb]. destruct l as [|x l]; [done|]. split; [|done].
  intros g' l'. cbn. rewrite lookup_insert_Some. intros [[<- <-]|[_ ?]]; [done|by apply R].
Qed.
Lemma unregister_group_other s g : reg_own s ->
  reg_own (unregister_group s g) /\ forall g' v r, g' <> g -> storage (unregister_group s g) !! (g', v, r) = storage s !! (g', v, r).
Proof.
  intros R. unfold unregister_group. destruct (registered s !! g) as [l|] eqn:E; [|done]. split.
  - intros g' l'. cbn. rewrite lookup_delete_Some. intros [_ ?]. by apply R.
  - intros g' v r N. cbn. apply remove_storages_other. intros x Hx. rewrite (R g l E x Hx). done.
Qed.
Lemma elem_of_group g l x : x ∈ of_group g l -> gvk_group x = g.
Proof. rewrite in_group_of. rewrite elem_in_group. by intros []. Qed.
Lemma call_other s c : lists_own c -> reg_own s ->
  reg_own (rstep servable s c).1 /\ forall g v r, ~ concerns c g -> storage (rstep servable s c).1 !! (g, v, r) = storage s !! (g, v, r).
Proof.
  intros L R. destruct c as [g l|g|o l|o l]; cbn [rstep lists_own concerns] in *.
  - destruct (register_group_other s g l L R) as [A B]. split; [done|]. intros g' v r N. apply B. congruence.
  - destruct (unregister_group_other s g R) as [A B]. split; [done|]. intros g' v r N. apply B. congruence.
  - revert s R. induction o as [|g o IH]; intros s R; [done|]. cbn [register_gvks].
    destruct (register_group_other s g (of_group g l) (fun x => elem_of_group g l x) R) as [A B].
    destruct (register_group servable s g (of_group g l)) as [s' out]. cbn in A, B. destruct out; cbn.
    + destruct (IH s' A) as [A' B']. split; [done|]. intros g' v r N. apply not_elem_of_cons in N. destruct N. rewrite B' by done. by apply B.
    + split; [done|]. intros g' v r N. apply not_elem_of_cons in N. destruct N. by apply B.
    + split; [done|]. intros g' v r N. apply not_elem_of_cons in N. destruct N. by apply B.
  - revert s R. induction o as [|g o IH]; intros s R; [done|]. cbn [unregister_gvks].
    destruct (unregister_group_other s g R) as [A B]. destruct (IH _ A) as [A' B']. split; [done|].
    intros g' v r N. apply not_elem_of_cons in N. destruct N. cbn. rewrite B' by done. by apply B.
Qed.
Lemma rrun_own cs : forall s, (forall c, c ∈ cs -> lists_own c) -> reg_own s -> reg_own (rrun servable s cs).1.
Proof.
  induction cs as [|c cs IH]; intros s L R; [done|]. cbn [rrun]. destruct (call_other s c (L c (elem_of_list_here _ _)) R) as [A _].
  destruct (rstep servable s c) as [s1 o1]. cbn in A. specialize (IH s1 (fun c H => L c (elem_of_list_further _ _ _ H)) A).
  by destruct (rrun servable s1 cs).
Qed.
Lemma rrun_app cs c : forall s, (rrun servable s (cs ++ [c])).1 = (rstep servable (rrun servable s cs).1 c).1.
Proof.
  induction cs as [|d cs IH]; intros s; cbn [app rrun].
  - cbn [fst]. by destruct (rstep servable s c).
  - destruct (rstep servable s d) as [s1 o1]. specialize (IH s1). by destruct (rrun servable s1 (cs ++ [c])), (rrun servable s1 cs).
Qed.

(** *** No interruption: the storages are swapped one by one *)
Lemma add_storages_keeps l : forall s k, is_Some (s !! k) -> is_Some ((add_storages servable s l).1 !! k).
Proof.
  induction l as [|x l IH]; intros s k H; [done|]. cbn [add_storages]. destruct (find_resource x) as [r|]; [|by apply IH].
  destruct (servable x); [|done]. apply IH. destruct (decide (gvr_of x r = k)) as [->|N]; [rewrite lookup_insert; by eexists|by rewrite lookup_insert_ne].
Qed.
End frame.

(** *** Several versions *)
Lemma version_key_inj g v v' : version_key g v = version_key g v' -> v = v'.
Proof. unfold version_key. induction g as [|c g IH]; cbn; intros [=]; auto. Qed.
Lemma foldr_listed (f : string -> list (string * gvk)) vs v : v ∈ vs -> forall m : gmap string (list (string * gvk)), foldr (fun v m => <[v := f v]> m) m vs !! v = Some (f v).
Proof.
  intros H m. induction vs as [|v' vs IH]; [by apply elem_of_nil in H|]. cbn. destruct (decide (v' = v)) as [->|N]; [by rewrite lookup_insert|].
  rewrite lookup_insert_ne by done. apply IH. apply elem_of_cons in H as [->|H]; done.
Qed.
Lemma foldr_versions g (f : string -> list (string * gvk)) vs v : v ∈ vs ->
  forall m : gmap string (list (string * gvk)), foldr (fun v m => <[version_key g v := f v]> m) m vs !! version_key g v = Some (f v).
Proof.
  intros H m. induction vs as [|v' vs IH]; [by apply elem_of_nil in H|]. cbn. destruct (decide (v' = v)) as [->|N]; [by rewrite lookup_insert|].
  rewrite lookup_insert_ne by (intros E; by apply version_key_inj in E). apply IH. apply elem_of_cons in H as [->|H]; done.
Qed.
