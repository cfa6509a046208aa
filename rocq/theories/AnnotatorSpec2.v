(** Where the patch that sets one annotation writes nothing. *)
From Verif Require Import JsonModel ValueSpec.
#[local] Open Scope string_scope.

(** Not the annotation [k], nor what holds it, nor what the server maintains. *)
Definition elsewhere (k : string) (ps : list pos) : Prop :=
  match ps with
  | Key a :: Key b :: Key c :: _ => 
      if decide (a = "metadata") then if decide (b = "annotations") then c <> k else b ∉ ["name"; "namespace"; "uid"; "resourceVersion"]
      else a ∉ ["apiVersion"; "kind"]
  | Key a :: Key b :: _ => if decide (a = "metadata") then b ∉ ["annotations"; "name"; "namespace"; "uid"; "resourceVersion"] else a ∉ ["apiVersion"; "kind"]
  | Key a :: _ => a ∉ ["metadata"; "apiVersion"; "kind"]
  | _ => False
  end.
