(** Proofs about label selectors. *)
From Verif Require Import JsonModel JsonSpec JsonProofs ExprModel ExprSpec ExprProofs3 SelectorSpec.

Section proofs.
Context {FF : FloatFmt} {EE : ExprEnv}.

Definition labelset (labels : jobj) : list (string * string) := map (fun kv => (kv.1, sprint kv.2)) labels.
Definition equals (m : jobj) : list req := map (fun kv : string * json => RIn kv.1 [sprint kv.2]) m.

Lemma find_label (labels : jobj) k : snd <$> List.find (fun kv => String.eqb kv.1 k) (labelset labels) = label labels k.
Proof.
  unfold label, labelset. induction labels as [|[k' v] l IH]; [done|]. cbn [map List.find fst snd mget].
  destruct (decide (k = k')) as [->|N].
  - by rewrite String.eqb_refl.
  - assert (String.eqb k' k = false) as -> by (apply String.eqb_neq; congruence). exact IH.
Qed.

Lemma in_equals m r : ksorted m -> In r (equals m) <-> exists k v, mget m k = Some v /\ r = RIn k [sprint v].
Proof.
  intros K. unfold equals. rewrite in_map_iff. split.
  - intros ([k v] & <- & I). exists k, v. split; [|done]. apply in_mget; [done|]. by apply elem_of_list_In.
  - intros (k & v & E & ->). exists (k, v). split; [done|]. apply elem_of_list_In. by apply mget_in.
Qed.
Lemma equals_match labels m : ksorted m -> forallb (req_matches (labelset labels)) (equals m) = true <-> has_labels labels m.
Proof.
  intros K. unfold has_labels. rewrite forallb_forall. split.
  - intros H k v E. assert (I : In (RIn k [sprint v]) (equals m)) by (apply in_equals; [done|]; by exists k, v).
    apply H in I. cbn in I. rewrite find_label in I. destruct (label labels k) as [w|]; [|done]. apply bool_decide_eq_true in I. apply elem_of_list_singleton in I. by subst.
  - intros H r I. apply in_equals in I; [|done]. destruct I as (k & v & E & ->). cbn. rewrite find_label, (H _ _ E). apply bool_decide_eq_true. set_solver.
Qed.
Lemma equals_ok m : ksorted m -> forallb req_ok (equals m) = true <-> pairs_ok m.
Proof.
  intros K. unfold pairs_ok. rewrite forallb_forall. split.
  - intros H k v E. assert (I : In (RIn k [sprint v]) (equals m)) by (apply in_equals; [done|]; by exists k, v).
    apply H in I. cbn in I. apply andb_true_iff in I. destruct I as [I _]. apply andb_true_iff in I. destruct I as [I1 I2]. split; [done|]. by rewrite andb_true_r in I2.
  - intros H r I. apply in_equals in I; [|done]. destruct I as (k & v & E & ->). cbn. destruct (H _ _ E) as [-> ->]. done.
Qed.

Lemma forallb_elem {A} (f : A -> bool) l : forallb f l = true <-> forall x, x ∈ l -> f x = true.
Proof. rewrite forallb_forall. by setoid_rewrite elem_of_list_In. Qed.

Lemma in_or_not (o : option string) (vs : list string) : match o with Some v => bool_decide (v ∈ vs) | None => false end = true <-> exists v, o = Some v /\ v ∈ vs.
Proof.
  destruct o as [v|]; [|split; [done|by intros (v & E & _)]]. rewrite bool_decide_eq_true. split; [intros I; by exists v|]. intros (w & E & I). by injection E as ->.
Qed.

(** What an entry turns into. *)
Lemma entry_req m :
  (entry_ok m /\ exists r, label_req (JMap m) = Some [r] /\ req_ok r = true /\ forall labels, req_matches (labelset labels) r = true <-> meets labels m)
  \/ (~ entry_ok m /\ (label_req (JMap m) = None \/ exists r, label_req (JMap m) = Some [r] /\ req_ok r = false)).
Proof.
  unfold label_req. change (match mget m "values" with Some (JList l) => map sprint l | _ => [] end) with (values m).
  change (match mget m "key" with Some (JStr s) => s | _ => ""%string end) with (text m "key").
  change (match mget m "operator" with Some (JStr s) => s | _ => ""%string end) with (text m "operator"). cbv zeta.
  unfold entry_ok, meets. generalize (text m "key") as k, (text m "operator") as op, (values m) as vs. intros k op vs.
  destruct (decide (op = "In"%string)) as [->|N1].
  { destruct (req_ok (RIn k vs)) eqn:E.
    - left. cbn in E. apply andb_true_iff in E. destruct E as [E E3]. apply andb_true_iff in E. destruct E as [E1 E2].
      assert (vs <> []) by (intros ->; by rewrite bool_decide_true in E3). rewrite forallb_elem in E2. split; [naive_solver|]. exists (RIn k vs). split; [done|]. split.
      + cbn. rewrite E1, bool_decide_false by done. rewrite andb_true_r. cbn. by apply forallb_elem.
      + intros labels. cbn. rewrite find_label, in_or_not. split; [by left|]. by intros [[_ ?]|[[? _]|[[? _]|[? _]]]].
    - right. split; [|right; by exists (RIn k vs)]. intros [E1 [(_ & E2 & E3)|[[?|?] _]]]; [|done..]. cbn in E. rewrite E1, bool_decide_false in E by done. rewrite andb_true_r in E. cbn in E.
      apply forallb_elem in E3. congruence. }
  destruct (decide (op = "NotIn"%string)) as [->|N2].
  { destruct (req_ok (RNotIn k vs)) eqn:E.
    - left. cbn in E. apply andb_true_iff in E. destruct E as [E E3]. apply andb_true_iff in E. destruct E as [E1 E2].
      assert (vs <> []) by (intros ->; by rewrite bool_decide_true in E3). rewrite forallb_elem in E2. split; [naive_solver|]. exists (RNotIn k vs). split; [done|]. split.
      + cbn. rewrite E1, bool_decide_false by done. rewrite andb_true_r. cbn. by apply forallb_elem.
      + intros labels. cbn. rewrite find_label. assert (Hb := in_or_not (label labels k) vs).
        assert ((match label labels k with Some v => negb (bool_decide (v ∈ vs)) | None => true end) = negb (match label labels k with Some v => bool_decide (v ∈ vs) | None => false end)) as -> by (by destruct (label labels k)).
        rewrite negb_true_iff. destruct (match label labels k with Some v => bool_decide (v ∈ vs) | None => false end).
        * split; [done|]. intros [[? _]|[[_ H1]|[[? _]|[? _]]]]; [done| |done..]. destruct H1. by apply Hb.
        * split; [|done]. intros _. right; left. split; [done|]. intros H1. apply Hb in H1. done.
    - right. split; [|right; by exists (RNotIn k vs)]. intros [E1 [(_ & E2 & E3)|[[?|?] _]]]; [|done..]. cbn in E. rewrite E1, bool_decide_false in E by done. rewrite andb_true_r in E. cbn in E.
      apply forallb_elem in E3. congruence. }
  destruct (decide (op = "Exists"%string)) as [->|N3].
  { destruct vs as [|v vs]; [|right; split; [|by left]; intros [_ [([?|?] & _)|[_ ?]]]; done].
    destruct (valid_key k) eqn:E.
    - left. split; [naive_solver|]. exists (RExists k). split; [done|]. split; [done|]. intros labels. cbn. rewrite find_label. destruct (label labels k).
      + split; [|done]. intros _. right; right; left. by split.
      + split; [done|]. by intros [[? _]|[[? _]|[[_ ?]|[? _]]]].
    - right. split; [by intros [? _]|]. right. by exists (RExists k). }
  destruct (decide (op = "DoesNotExist"%string)) as [->|N4].
  { destruct vs as [|v vs]; [|right; split; [|by left]; intros [_ [([?|?] & _)|[_ ?]]]; done].
    destruct (valid_key k) eqn:E.
    - left. split; [naive_solver|]. exists (RMissing k). split; [done|]. split; [done|]. intros labels. cbn. rewrite find_label. destruct (label labels k).
      + split; [done|]. by intros [[? _]|[[? _]|[[? _]|[_ ?]]]].
      + split; [|done]. intros _. right; right; right. by split.
    - right. split; [by intros [? _]|]. right. by exists (RMissing k). }
  right. split; [|by left]. intros [_ [([?|?] & _)|[[?|?] _]]]; done.
Qed.

Lemma entries_req (entries : list jobj) :
  (Forall entry_ok entries /\ exists rs, collect label_req (map JMap entries) = Some rs /\ forallb req_ok (concat rs) = true
     /\ forall labels, forallb (req_matches (labelset labels)) (concat rs) = true <-> Forall (meets labels) entries)
  \/ (~ Forall entry_ok entries /\ (collect label_req (map JMap entries) = None \/ exists rs, collect label_req (map JMap entries) = Some rs /\ forallb req_ok (concat rs) = false)).
Proof.
  induction entries as [|m es IH].
  - left. split; [constructor|]. exists []. split; [done|]. split; [done|]. intros labels. split; [constructor|done].
  - cbn [map collect]. destruct (entry_req m) as [(H & r & E & Hok & Hm)|(H & E)].
    + rewrite E. cbn. destruct IH as [(F & rs & -> & Hoks & Hms)|(F & Fe)].
      * left. split; [by constructor|]. exists ([r] :: rs). split; [done|]. split; [cbn; by rewrite Hok, Hoks|].
        intros labels. cbn. rewrite andb_true_iff, Hm, Hms. by rewrite Forall_cons.
      * right. split; [by intros [_ ?]%Forall_cons|]. destruct Fe as [->|(rs & -> & Hf)]; [by left|]. right. exists ([r] :: rs). split; [done|]. cbn. by rewrite Hf, andb_false_r.
    + right. split; [by intros [? _]%Forall_cons|]. destruct E as [->|(r & -> & Hf)]; [by left|]. cbn. destruct (collect label_req (map JMap es)) as [rs|]; [|by left]. right. exists ([r] :: rs).
      split; [done|]. cbn. by rewrite Hf.
Qed.

Lemma asks_reqs sel wanted entries : asks sel wanted entries ->
  selector_reqs sel = (es ← collect label_req (map JMap entries); Some (equals wanted ++ concat es)).
Proof.
  unfold asks, selector_reqs. destruct (mget sel "matchLabels") as [[]|]; try done; destruct (mget sel "matchExpressions") as [[]|]; try done; intros [-> ->]; try done.
  cbn. by rewrite app_nil_r.
Qed.

Lemma choose_valid sel wanted entries labels : ksorted wanted -> asks sel wanted entries -> valid wanted entries ->
  exists b, choose sel labels = Val (JBool b) /\ (b = true <-> satisfies labels wanted entries).
Proof.
  intros K A [V1 V2]. unfold choose, op_selector. cbn [as_list is_null orb]. unfold match_labels. rewrite (asks_reqs _ _ _ A).
  destruct (entries_req entries) as [(_ & rs & -> & Hok & Hm)|[? _]]; [|done]. cbn. fold (labelset labels).
  rewrite forallb_app, Hok. rewrite (proj2 (equals_ok _ K) V1). cbn. eexists. split; [done|].
  rewrite forallb_app, andb_true_iff, (equals_match _ _ K), Hm. done.
Qed.
Lemma choose_invalid sel wanted entries labels : ksorted wanted -> asks sel wanted entries -> ~ valid wanted entries -> choose sel labels = Err.
Proof.
  intros K A V. unfold choose, op_selector. cbn [as_list is_null orb]. unfold match_labels. rewrite (asks_reqs _ _ _ A).
  destruct (entries_req entries) as [(F & rs & -> & Hok & Hm)|[F [->|(rs & -> & Hf)]]]; [|done|].
  - cbn. rewrite forallb_app, Hok. destruct (forallb req_ok (equals wanted)) eqn:E; [|done]. apply (equals_ok _ K) in E. by destruct V.
  - cbn. by rewrite forallb_app, Hf, andb_false_r.
Qed.
Lemma valid_dec wanted entries : ksorted wanted -> valid wanted entries \/ ~ valid wanted entries.
Proof.
  intros K. unfold valid. destruct (entries_req entries) as [(F & _)|[F _]]; [|right; naive_solver].
  destruct (forallb req_ok (equals wanted)) eqn:E.
  - left. split; [by apply equals_ok|done].
  - right. intros [V _]. apply (equals_ok _ K) in V. congruence.
Qed.
End proofs.
