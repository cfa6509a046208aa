(** Specification vocabulary for the view cache on memory. *)
From Verif Require Import AliasModel ViewSpec.

(** The objects in the cache. *)
Definition m_objects (s : msys) : caches := fmap (M := gmap gvk) (fun st : gmap string nat => fmap (M := gmap string) (at_ s) st) (ms_store s).
(** The store lists its objects in the order of the keys. *)
Definition key_lister (keys : gset string -> list string) : store -> list jobj := fun s => omap (fun k => s !! k) (keys (dom s)).
(** The keys of a store, in some order. *)
Definition orders (keys : gset string -> list string) : Prop := forall X, Permutation (keys X) (elements X).

(** The call that an action makes, with the objects as they are when it is made. *)
Definition call_of (s : msys) (a : mact) : list vact :=
  match a with
  | MCreate u a => if knows s u a then [Do (VCreate (at_ s a))] else []
  | MUpdate u a => if knows s u a then [Do (VUpdate (at_ s a))] else []
  | MPatch u a p => if knows s u a then [Do (VPatch (at_ s a) p)] else []
  | MDelete u a => if knows s u a then [Do (VDelete (at_ s a))] else []
  | MDeleteAll u a sel => if knows s u a then [Do (VDeleteAll (at_ s a) sel)] else []
  | MSubUpdate u sub a => if knows s u a then [Do (VSubUpdate sub (at_ s a))] else []
  | MSubCreate u sub a c => if knows s u c then if knows s u a then [Do (VSubCreate sub (at_ s a) (at_ s c))] else [] else []
  | MListen x => [Listen x]
  | MLeave i => [Leave i]
  | _ => []
  end.
Section run.
Variable hash : string -> string.
Variable keys : gset string -> list string.
Variable react : nat -> msys -> mevent -> list (nat * jobj).
Fixpoint calls (s : msys) (l : list mact) : list vact :=
  match l with
  | [] => []
  | a :: l => call_of s a ++ calls (mstep hash keys react s a).1 l
  end.
End run.

(** Nobody asks for the store itself. *)
Definition no_peek (a : mact) : Prop := match a with MPeek _ _ => False | _ => True end.
(** The handler never writes to objects that it has got. *)
Definition reads_only (react : nat -> msys -> mevent -> list (nat * jobj)) (l : list mact) (i : nat) : Prop :=
  (forall s e, react i s e = []) /\ Forall (fun a => match a with MScribble (Handler j) _ _ => j <> i | _ => True end) l.

(** What an event shows: with the old object, or without. *)
Definition seen (s : msys) (e : mevent) : wevent :=
  match e with
  | MAdd a => WCreate (at_ s a)
  | MUpd o a => WUpdate (Some (at_ s o)) (Some (at_ s a))
  | MDel a => WDelete (at_ s a)
  end.
Definition but_old (e : wevent) : wevent := match e with WUpdate _ new => WUpdate None new | e => e end.
