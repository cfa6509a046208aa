(** Specification vocabulary for label selectors. *)
From Verif Require Import ExprModel ExprSpec.

Section spec.
Context {FF : FloatFmt} {EE : ExprEnv}.
(** The value of a label, as text. *)
Definition label (labels : jobj) (k : string) : option string := sprint <$> mget labels k.
(** {"key": k, "operator": op, "values": vs} *)
Definition wants (k op : string) (vs : list json) : json :=
  JMap [("key"%string, JStr k); ("operator"%string, JStr op); ("values"%string, JList vs)].
(** A field of an entry that should be a string; "" if there is none. *)
Definition text (m : jobj) (k : string) : string := match mget m k with Some (JStr s) => s | _ => EmptyString end.
Definition values (m : jobj) : list string := match mget m "values" with Some (JList l) => map sprint l | _ => [] end.
(** The labels have what an entry of matchExpressions asks for. *)
Definition meets (labels m : jobj) : Prop :=
  let k := text m "key" in
  (text m "operator" = "In"%string /\ exists v, label labels k = Some v /\ v ∈ values m)
  \/ (text m "operator" = "NotIn"%string /\ ~ exists v, label labels k = Some v /\ v ∈ values m)
  \/ (text m "operator" = "Exists"%string /\ label labels k <> None)
  \/ (text m "operator" = "DoesNotExist"%string /\ label labels k = None).
Definition has_labels (labels wanted : jobj) : Prop := forall k v, mget wanted k = Some v -> label labels k = Some (sprint v).
(** An entry that Kubernetes accepts. *)
Definition entry_ok (m : jobj) : Prop :=
  valid_key (text m "key") = true
  /\ ((text m "operator" = "In"%string \/ text m "operator" = "NotIn"%string) /\ values m <> [] /\ (forall v, v ∈ values m -> valid_value v = true)
      \/ (text m "operator" = "Exists"%string \/ text m "operator" = "DoesNotExist"%string) /\ values m = []).
Definition pairs_ok (wanted : jobj) : Prop := forall k v, mget wanted k = Some v -> valid_key k = true /\ valid_value (sprint v) = true.
(** The selector asks for these labels and for these entries; a selector without
    matchLabels and matchExpressions just lists labels. *)
Definition asks (sel wanted : jobj) (entries : list jobj) : Prop :=
  match mget sel "matchLabels", mget sel "matchExpressions" with
  | None, None => wanted = sel /\ entries = []
  | Some (JMap m), None => wanted = m /\ entries = []
  | None, Some (JList l) => wanted = [] /\ l = map JMap entries
  | Some (JMap m), Some (JList l) => wanted = m /\ l = map JMap entries
  | _, _ => False
  end.
Definition valid (wanted : jobj) (entries : list jobj) : Prop := pairs_ok wanted /\ Forall entry_ok entries.
Definition satisfies (labels wanted : jobj) (entries : list jobj) : Prop := has_labels labels wanted /\ Forall (meets labels) entries.
(** What {"@selector": [sel, labels]} gives for values of its arguments. *)
Definition choose (sel labels : jobj) : res json := op_selector (JList [JMap sel; JMap labels]).
(** How scalars are written as the value of a label. *)
Definition shown (v : json) : option string :=
  match v with
  | JNull => Some "<nil>"%string
  | JBool b => Some (if b then "true" else "false")%string
  | JInt n => Some (pretty n)
  | JFloat f => Some (fmt_g f)
  | JStr s => Some s
  | _ => None
  end.
End spec.
