(** What it means that an expression leaves everything as it was.

    [reflects h r j]: the result [r], read in memory [h], is the result [j].  [keys_apart]
    says which map literals are harmless: none of their keys leads through a place that
    another one sets. *)
From Verif Require Import JsonModel ExprModel HeapModel.

(** The value [w] is [v] or a part of it. *)
Inductive within (h : heap) (v : hval) : hval -> Prop :=
  | within_self : within h v v
  | within_list n l w : within h v (HRef n) -> h !! n = Some (CList l) -> w ∈ l -> within h v w
  | within_map n m k w : within h v (HRef n) -> h !! n = Some (CMap m) -> (k, w) ∈ m -> within h v w.

(** Setting a field of a map, making the maps on the way. *)
Fixpoint set_at (p : list string) (v : json) (d : jobj) : option jobj :=
  match p with
  | [] => None
  | k :: p' =>
      match p' with
      | [] => Some (mset d k v)
      | _ =>
          match mget d k with
          | None => x ← set_at p' v []; Some (mset d k (JMap x))
          | Some (JMap m) => x ← set_at p' v m; Some (mset d k (JMap x))
          | Some _ => None
          end
      end
  end.

Section spec.
Context {EE : ExprEnv} {HE : HeapEnv}.
(** Paths on memory and paths on JSON values are the same thing: what is found is part of
    the document, and setting sets. *)
Record faithful_paths : Prop := {
  fp_get : forall q h v j, json_of h v = Some j ->
    match jp_get q j, hp_get q h v with
    | Some js, Some vs => Forall2 (fun w jw => within h v w /\ json_of h w = Some jw) vs js
    | None, None => True
    | _, _ => False
    end;
  fp_set : forall q p, steps q = Some p -> p <> [] /\ forall v d, jp_set q v (JMap d) = JMap <$> set_at p v d }.

(** Only the first half of it: what is found is part of the document. *)
Definition inner_paths : Prop := forall q h v vs w, hp_get q h v = Some vs -> w ∈ vs -> within h v w.

(** The field that a key of a map literal sets; "$." sets the map itself. *)
Definition path_of (key : string) : option (list string) :=
  if decide (key = "$.") then Some []
  else match key with String c _ => if decide (c = dollar) then steps key else Some [key] | EmptyString => Some [key] end.
Definition keys_apart (ks : list string) : Prop :=
  (forall k, k ∈ ks -> is_Some (path_of k)) /\
  forall k k' p x r, k ∈ ks -> k' ∈ ks -> path_of k = Some p -> path_of k' = Some (p ++ x :: r) -> p ++ r = [].
Inductive safe_keys : expr -> Prop :=
  | safe_expr op arg l :
      (forall a, arg = Some a -> safe_keys a) ->
      (forall es, l = LList es -> Forall safe_keys es) ->
      (forall m, l = LMap m -> keys_apart (map fst m) /\ Forall (fun kv => safe_keys kv.2) m) ->
      safe_keys (Expr op arg l).
End spec.

(** Two values that have nothing in common. *)
Definition disjoint (h : heap) (v w : hval) : Prop := forall n, within h v (HRef n) -> within h w (HRef n) -> False.
Definition reflects (h : heap) (r : res hval) (j : res json) : Prop :=
  match r, j with
  | Val v, Val j => json_of h v = Some j
  | Err, Err | Panic, Panic => True
  | _, _ => False
  end.
