(** Calls do not write to objects that exist, unless handlers do. *)
From Verif Require Import AliasModel AliasSpec ViewModel.
Local Open Scope nat_scope.

Section prefix.
Variable hash : string -> string.
Variable keys : gset string -> list string.
Variable react : nat -> msys -> mevent -> list (nat * jobj).
Hypothesis Hreact : forall i s e, react i s e = [].
#[local] Arguments new_obj : simpl never.
Notation grows s s' := (ms_mem s `prefix_of` ms_mem s').

Lemma new_grows s m : grows s (new_obj s m).1.
Proof. unfold new_obj, with_mem. cbn. eexists. reflexivity. Qed.
Lemma notify_grows e s i : grows s (notify react e s i).
Proof.
  unfold notify, copy_obj.
  destruct e as [a|o a|a]; cbv beta iota; pose proof (new_grows s (obj_copy (at_ s a))) as H; destruct (new_obj s (obj_copy (at_ s a))) as [s1 b];
    rewrite Hreact; exact H.
Qed.
Lemma fold_grows {A} (f : msys -> A -> msys) l : (forall s a, grows s (f s a)) -> forall s, grows s (foldl f s l).
Proof.
  intros H. induction l as [|a l IH]; intros s; [reflexivity|]. cbn. transitivity (ms_mem (f s a)); [apply H|apply IH].
Qed.
Lemma trigger_grows s x e : grows s (trigger react s x e).
Proof. unfold trigger. apply fold_grows. intros. apply notify_grows. Qed.
Lemma add_grows s a : grows s (m_add hash react s a).1.
Proof.
  unfold m_add. destruct (is_view_kind _); [|reflexivity]. pose proof (new_grows s (stamp hash (at_ s a))) as H.
  destruct (new_obj s (stamp hash (at_ s a))) as [s1 b]. cbn [fst] in *. etransitivity; [exact H|].
  exact (trigger_grows (m_put s1 _ b) _ _).
Qed.
Lemma change_grows s o a : grows s (m_change hash react s o a).1.
Proof.
  unfold m_change. pose proof (new_grows s (stamp hash (at_ s a))) as H.
  destruct (new_obj s (stamp hash (at_ s a))) as [s1 b]. cbn [fst] in *.
  destruct (is_view_kind _); [|exact H]. destruct (obj_equal _ _); [exact H|]. cbn [fst]. etransitivity; [exact H|].
  exact (trigger_grows (m_put s1 _ b) _ _).
Qed.
Lemma delete_grows s a : grows s (m_delete react s a).1.
Proof.
  unfold m_delete. destruct (is_view_kind _); [|reflexivity]. destruct (_ !! _) as [e|]; [|reflexivity].
  exact (trigger_grows (m_drop s _ _) _ _).
Qed.
Lemma get_grows s x ns name : grows s (m_get s x ns name).1.
Proof.
  unfold m_get, copy_obj. destruct (is_view_kind x); [|reflexivity]. destruct (_ !! _) as [e|]; [|reflexivity].
  pose proof (new_grows s (obj_copy (at_ s e))) as H. destruct (new_obj s (obj_copy (at_ s e))). exact H.
Qed.
Lemma update_grows s a : grows s (m_update hash react s a).1.
Proof.
  unfold m_update, m_current. pose proof (get_grows s (view_gvk (get_operator (get_gvk (at_ s a))) (get_kind (at_ s a))) (get_namespace (at_ s a)) (get_name (at_ s a))) as H.
  destruct (m_get _ _ _ _) as [s1 [o|]]; cbn [fst] in *; [|exact H]. destruct (obj_equal _ _); [exact H|].
  etransitivity; [exact H|apply change_grows].
Qed.
Lemma new_update_grows s m : grows s (let '(s, b) := new_obj s m in m_update hash react s b).1.
Proof. pose proof (new_grows s m) as H. destruct (new_obj s m) as [s1 b]. etransitivity; [exact H|apply update_grows]. Qed.
Lemma patch_grows s a p : grows s (m_patch hash react s a p).1.
Proof.
  unfold m_patch, m_current. pose proof (get_grows s (view_gvk (get_operator (get_gvk (at_ s a))) (get_kind (at_ s a))) (get_namespace (at_ s a)) (get_name (at_ s a))) as H.
  destruct (m_get _ _ _ _) as [s1 [o|]]; cbn [fst] in *; [|exact H]. destruct (patch_object _ _) as [m|]; [|exact H].
  etransitivity; [exact H|]. pose proof (new_grows s1 m) as H1. destruct (new_obj s1 m) as [s2 b]. etransitivity; [exact H1|apply change_grows].
Qed.
Lemma sub_update_grows s sub a : grows s (m_sub_update hash react s sub a).1.
Proof.
  unfold m_sub_update, m_current. pose proof (get_grows s (view_gvk (get_operator (get_gvk (at_ s a))) (get_kind (at_ s a))) (get_namespace (at_ s a)) (get_name (at_ s a))) as H.
  destruct (m_get _ _ _ _) as [s1 [o|]]; cbn [fst] in *; [|exact H]. destruct (mget (at_ s1 a) sub) as [[| | | | | |v]|]; try exact H.
  destruct (match mget (at_ s1 o) sub with Some (JMap w) => go_equal (JMap w) (JMap v) | _ => false end); [exact H|]. etransitivity; [exact H|apply new_update_grows].
Qed.
Lemma sub_create_grows s sub a b : grows s (m_sub_create hash react s sub a b).1.
Proof.
  unfold m_sub_create, m_current. destruct (mget (at_ s b) sub) as [[| | | | | |v]|]; try reflexivity.
  pose proof (get_grows s (view_gvk (get_operator (get_gvk (at_ s a))) (get_kind (at_ s a))) (get_namespace (at_ s a)) (get_name (at_ s a))) as H.
  destruct (m_get _ _ _ _) as [s1 [o|]]; cbn [fst] in *; [|exact H]. etransitivity; [exact H|apply new_update_grows].
Qed.
Lemma copy_all_grows l : forall s r, grows s (foldl (fun '(s, r) a => let '(s, b) := copy_obj s a in (s, r ++ [b])) (s, r) l).1.
Proof.
  induction l as [|a l IH]; intros s r; [reflexivity|]. cbn [foldl]. unfold copy_obj at 2.
  pose proof (new_grows s (obj_copy (at_ s a))) as H. destruct (new_obj s (obj_copy (at_ s a))) as [s1 b]. etransitivity; [exact H|apply IH].
Qed.
Lemma list_grows s x sel : grows s (m_list keys s x sel).1.
Proof. apply copy_all_grows. Qed.
Lemma delete_items_grows l : forall s, grows s (m_delete_items react s l).1.
Proof.
  induction l as [|a l IH]; intros s; [reflexivity|]. cbn. pose proof (delete_grows s a) as H.
  destruct (m_delete react s a) as [s1 []]; try exact H. etransitivity; [exact H|apply IH].
Qed.
Lemma give_all_mem u l : forall s, ms_mem (give_all s u l) = ms_mem s.
Proof. induction l as [|b l IH]; intros s; [reflexivity|]. unfold give_all in *. cbn. rewrite IH. reflexivity. Qed.

Lemma step_grows s a : match a with MScribble _ _ _ => False | _ => True end -> grows s (mstep hash keys react s a).1.
Proof.
  intros HA. assert (call : forall u b (r : msys * vresult), grows s r.1 -> grows s (if knows s u b then (r.1, []) else (s, @nil nat)).1).
  { intros u b r H. destruct (knows s u b); [exact H|reflexivity]. }
  destruct a as [u m|u a m|u a|u a|u a p|u a|u a sel|u sub a|u sub a b|u x ns name|u x sel|x|i|u x]; cbn [mstep].
  - pose proof (new_grows s m) as H. destruct (new_obj s m). exact H.
  - destruct HA.
  - apply call, add_grows.
  - apply call, update_grows.
  - apply call, patch_grows.
  - apply call, delete_grows.
  - apply call. unfold m_delete_all. pose proof (list_grows s (list_gvk (view_gvk (get_operator (get_gvk (at_ s a))) (get_kind (at_ s a)))) sel) as H.
    destruct (m_list keys s _ sel) as [s1 l]. etransitivity; [exact H|apply delete_items_grows].
  - apply call, sub_update_grows.
  - destruct (knows s u b); [|reflexivity]. apply call, sub_create_grows.
  - pose proof (get_grows s x ns name) as H. destruct (m_get s x ns name) as [s1 [b|]]; exact H.
  - pose proof (list_grows s x sel) as H. destruct (m_list keys s x sel) as [s1 l]. cbn [fst] in *. rewrite give_all_mem. exact H.
  - cbn [fst]. unfold m_listen. destruct (is_view_kind x); [|reflexivity]. cbv zeta.
    match goal with |- context[foldl ?f ?s1 ?l] => exact (fold_grows f l (fun s a => notify_grows _ s _) s1) end.
  - reflexivity.
  - cbn [fst]. rewrite give_all_mem. reflexivity.
Qed.
End prefix.
