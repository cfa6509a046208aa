(** Specification vocabulary for discovery and for the composite client. *)
From Verif Require Import DiscoModel ViewSpec.

(** The kind was registered and not unregistered since. *)
Definition kept (x : gvk) (l : list dact) : Prop := exists before after, l = before ++ Register x :: after /\ ~ In (Unregister x) after.
(** A view kind that is not the kind of a list, kept since its registration. *)
Definition offered (x : gvk) (l : list dact) : Prop := is_object_kind x = true /\ kept x l.
(** How a view is described. *)
Definition described (x : gvk) : api_resource :=
  ApiResource (lower (gvk_kind x)) (lower (gvk_kind x)) true (gvk_kind x) (gvk_group x) (gvk_version x) ["get"; "list"; "create"; "update"; "patch"; "delete"; "watch"]%string.

(** The calls about views, and those about other objects. *)
Definition about_views (c : ccall) : bool := is_view_kind (call_gvk c).
Definition about_others (c : ccall) : bool := negb (is_view_kind (call_gvk c)).
(** The answers to the calls of one sort. *)
Definition answers_to {A} (f : ccall -> bool) (l : list ccall) (rs : list A) : list A := map snd (List.filter (fun cr => f cr.1) (combine l rs)).
(** The writes of views. *)
Definition view_writes (l : list ccall) : list vop := omap (fun c => if about_views c then match c with CWrite o | CStatus o => Some o | _ => None end else None) l.
(** What Kubernetes gets. *)
Definition native_calls (l : list ccall) : list ccall := List.filter (fun c => about_others c && match c with CWatch _ => false | _ => true end) l.
Definition is_status (c : ccall) : bool := match c with CStatus _ => true | _ => false end.
(** The Kubernetes side after calls that reach it directly. *)
Definition native_run {N R} (native : N -> ccall -> N * R) (n : N) (l : list ccall) : N := foldl (fun n c => (native n c).1) n l.
