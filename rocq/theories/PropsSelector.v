(** Property C52: which objects a label selector picks. *)
From Verif Require Import JsonModel JsonSpec JsonProofs ExprModel ExprSpec ExprProofs3 SelectorSpec SelectorProofs TestExpr.

(** {"@selector": [s, l]} chooses by the values of its two arguments. *)
Theorem C52_operator : forall (FF : FloatFmt) (EE : ExprEnv) es el ctx sel labels,
  gives es ctx (JMap sel) -> gives el ctx (JMap labels) -> eval (opl "@selector" [es; el]) ctx = choose sel labels.
Proof.
  intros FF EE es el ctx sel labels Hs Hl. assert (G : gives (listE [es; el]) ctx (JList [JMap sel; JMap labels])) by (apply (list_gives [es; el] ctx [JMap sel; JMap labels]); by repeat constructor).
  unfold gives in G. rewrite opl_op1. change (eval (op1 "@selector" (listE [es; el])) ctx) with (rbind (eval (listE [es; el]) ctx) op_selector). by rewrite G.
Qed.
Print Assumptions C52_operator.

(** An acceptable selector picks an object exactly if the object has all labels it
    lists and meets all its entries. *)
Theorem C52_meaning : forall (FF : FloatFmt) (EE : ExprEnv) sel wanted entries labels, ksorted wanted -> asks sel wanted entries -> valid wanted entries ->
  exists b, choose sel labels = Val (JBool b) /\ (b = true <-> satisfies labels wanted entries).
Proof. intros. by apply choose_valid. Qed.
Print Assumptions C52_meaning.

(** Any other one is refused, whatever the labels. *)
Theorem C52_refused : forall (FF : FloatFmt) (EE : ExprEnv) sel wanted entries labels, ksorted wanted -> asks sel wanted entries -> ~ valid wanted entries ->
  choose sel labels = Err.
Proof. intros. by eapply choose_invalid. Qed.
Print Assumptions C52_refused.

(** The operators come in opposite pairs. *)
Theorem C52_opposites : forall (FF : FloatFmt) (EE : ExprEnv) labels k vs b,
  let only op := [("matchExpressions"%string, JList [wants k op vs])] in
  (choose (only "In"%string) labels = Val (JBool b) <-> choose (only "NotIn"%string) labels = Val (JBool (negb b)))
  /\ (choose (only "Exists"%string) labels = Val (JBool b) <-> choose (only "DoesNotExist"%string) labels = Val (JBool (negb b))).
Proof.
  intros FF EE labels k vs b only.
  assert (A : forall op, asks (only op) [] [[("key"%string, JStr k); ("operator"%string, JStr op); ("values"%string, JList vs)]]) by done.
  assert (K : ksorted []) by constructor.
  assert (Op : forall op op' : string, (entry_ok [("key"%string, JStr k); ("operator"%string, JStr op); ("values"%string, JList vs)] <-> entry_ok [("key"%string, JStr k); ("operator"%string, JStr op'); ("values"%string, JList vs)]) ->
    (meets labels [("key"%string, JStr k); ("operator"%string, JStr op); ("values"%string, JList vs)] <-> ~ meets labels [("key"%string, JStr k); ("operator"%string, JStr op'); ("values"%string, JList vs)]) ->
    choose (only op) labels = Val (JBool b) <-> choose (only op') labels = Val (JBool (negb b))).
  { intros op op' H1 H2. destruct (valid_dec [] [[("key"%string, JStr k); ("operator"%string, JStr op); ("values"%string, JList vs)]] K) as [V|V].
    - destruct (choose_valid _ _ _ labels K (A op) V) as (c & -> & Hc).
      assert (V' : valid [] [[("key"%string, JStr k); ("operator"%string, JStr op'); ("values"%string, JList vs)]]) by (destruct V as [V1 V2]; split; [exact V1|]; constructor; [|constructor]; apply H1; exact (Forall_inv V2)).
      destruct (choose_valid _ _ _ labels K (A op') V') as (c' & -> & Hc').
      assert (S1 : forall x, satisfies labels [] [x] <-> meets labels x) by (intros x; unfold satisfies; split; [intros [_ F]; exact (Forall_inv F)|intros M; split; [intros ? ? E; discriminate E|by constructor]]).
      rewrite S1 in Hc, Hc'. assert (c = negb c') as -> by (destruct c, c'; cbn; try done; naive_solver).
      destruct b, c'; cbn; split; congruence.
    - rewrite (choose_invalid _ _ _ labels K (A op) V). assert (V' : ~ valid [] [[("key"%string, JStr k); ("operator"%string, JStr op'); ("values"%string, JList vs)]]).
      { intros [V1 V2]. destruct V. split; [exact V1|]. constructor; [|constructor]. apply H1. exact (Forall_inv V2). }
      rewrite (choose_invalid _ _ _ labels K (A op') V'). split; congruence. }
  assert (T : forall op, text [("key"%string, JStr k); ("operator"%string, JStr op); ("values"%string, JList vs)] "operator" = op) by done.
  assert (T' : forall op, text [("key"%string, JStr k); ("operator"%string, JStr op); ("values"%string, JList vs)] "key" = k) by done.
  assert (T'' : forall op, values [("key"%string, JStr k); ("operator"%string, JStr op); ("values"%string, JList vs)] = map sprint vs) by done.
  split; apply Op; unfold entry_ok, meets; rewrite !T, !T', !T''.
  - split; (intros [H [([?|?] & H1)|[[?|?] ?]]]; [..|done|done]; try done; split; [done|]; left; split; [|done]; by (left + right)).
  - split.
    + intros [[_ H]|[[? _]|[[? _]|[? _]]]]; [|done..]. by intros [[? _]|[[_ H']|[[? _]|[? _]]]].
    + intros H. left. split; [done|]. destruct (match label labels k with Some v => bool_decide (v ∈ map sprint vs) | None => false end) eqn:D; [by apply in_or_not|].
      destruct H. right; left. split; [done|]. intros H. apply in_or_not in H. congruence.
  - split; (intros [H [([?|?] & H1)|[[?|?] ?]]]; [done|done|..]; try done; split; [done|]; right; split; [|done]; by (left + right)).
  - split.
    + intros [[? _]|[[? _]|[[_ H]|[? _]]]]; [done|done| |done]. by intros [[? _]|[[? _]|[[? _]|[_ ?]]]].
    + intros H. right; right; left. split; [done|]. intros E. destruct H. right; right; right. done.
Qed.
Print Assumptions C52_opposites.

(** The order of the entries does not matter. *)
Theorem C52_order : forall (FF : FloatFmt) (EE : ExprEnv) sel sel' wanted entries entries' labels, ksorted wanted -> asks sel wanted entries -> asks sel' wanted entries' ->
  Permutation entries entries' -> choose sel labels = choose sel' labels.
Proof.
  intros FF EE sel sel' wanted es es' labels K A A' P. destruct (valid_dec wanted es K) as [V|V].
  - assert (V' : valid wanted es') by (destruct V as [? F]; split; [done|by rewrite <- P]).
    destruct (choose_valid _ _ _ labels K A V) as (b & -> & Hb). destruct (choose_valid _ _ _ labels K A' V') as (b' & -> & Hb'). do 2 f_equal.
    apply eq_true_iff_eq. rewrite Hb, Hb'. unfold satisfies. by rewrite P.
  - rewrite (choose_invalid _ _ _ labels K A V). symmetry. eapply choose_invalid; [done..|]. intros [? F]. destruct V. split; [done|by rewrite P].
Qed.
Print Assumptions C52_order.

(** More entries never pick more objects. *)
Theorem C52_narrows : forall (FF : FloatFmt) (EE : ExprEnv) sel sel' wanted entries more labels, ksorted wanted -> asks sel wanted (entries ++ more) -> asks sel' wanted entries ->
  choose sel labels = Val (JBool true) -> choose sel' labels = Val (JBool true).
Proof.
  intros FF EE sel sel' wanted es more labels K A A' E. destruct (valid_dec wanted (es ++ more) K) as [V|V]; [|by rewrite (choose_invalid _ _ _ labels K A V) in E].
  assert (V' : valid wanted es) by (destruct V as [? [? ?]%Forall_app]; done).
  destruct (choose_valid _ _ _ labels K A V) as (b & Eb & Hb). destruct (choose_valid _ _ _ labels K A' V') as (b' & -> & Hb').
  assert (b = true) by congruence. apply Hb in H. destruct H as [H1 [H2 _]%Forall_app]. do 2 f_equal. by apply Hb'.
Qed.
Print Assumptions C52_narrows.

(** Only the labels that the selector names matter. *)
Theorem C52_local : forall (FF : FloatFmt) (EE : ExprEnv) sel wanted entries labels labels', ksorted wanted -> asks sel wanted entries ->
  (forall k, mget wanted k <> None \/ (exists m, m ∈ entries /\ text m "key" = k) -> label labels k = label labels' k) ->
  choose sel labels = choose sel labels'.
Proof.
  intros FF EE sel wanted es labels labels' K A L. destruct (valid_dec wanted es K) as [V|V]; [|by rewrite !(choose_invalid _ _ _ _ K A V)].
  destruct (choose_valid _ _ _ labels K A V) as (b & -> & Hb). destruct (choose_valid _ _ _ labels' K A V) as (b' & -> & Hb'). do 2 f_equal.
  apply eq_true_iff_eq. rewrite Hb, Hb'. unfold satisfies. f_equiv.
  - unfold has_labels. split; intros H k v E; rewrite <- (H _ _ E); [symmetry|]; apply L; left; by rewrite E.
  - rewrite !Forall_forall. split; intros H m I; specialize (H m I); unfold meets in *; [rewrite <- L by (right; by exists m)|rewrite L by (right; by exists m)]; done.
Qed.
Print Assumptions C52_local.

(** Values are compared as text, and what cannot be the value of a label is refused. *)
Theorem C52_text : forall (FF : FloatFmt) (EE : ExprEnv) labels k v s t, mget labels k = Some v -> shown v = Some s -> valid_key k = true ->
  choose [("matchLabels"%string, JMap [(k, JStr t)])] labels = if valid_value t then Val (JBool (String.eqb s t)) else Err.
Proof.
  intros FF EE labels k v s t L S HK. set (sel := [("matchLabels"%string, JMap [(k, JStr t)])]).
  assert (K : ksorted [(k, JStr t)]) by (repeat constructor). assert (A : asks sel [(k, JStr t)] []) by done.
  assert (G : forall k' v', mget [(k, JStr t)] k' = Some v' -> k' = k /\ v' = JStr t).
  { intros k' v'. unfold mget. cbn. destruct (decide (k' = k)) as [->|N]; [|done]. by intros [= <-]. }
  assert (G' : mget [(k, JStr t)] k = Some (JStr t)) by (unfold mget; cbn; by rewrite decide_True).
  assert (LS : label labels k = Some s). { unfold label. rewrite L. cbn. f_equal. destruct v as [|[]| | | | |]; try discriminate S; injection S as <-; reflexivity. }
  destruct (valid_value t) eqn:V.
  - destruct (choose_valid sel _ _ labels K A) as (b & -> & Hb).
    { split; [|constructor]. intros k' v' E. destruct (G _ _ E) as [-> ->]. by split. }
    do 2 f_equal. apply eq_true_iff_eq. rewrite Hb, String.eqb_eq. unfold satisfies, has_labels. split.
    + intros [H _]. specialize (H _ _ G'). rewrite LS in H. by injection H as ->.
    + intros ->. split; [|constructor]. intros k' v' E. destruct (G _ _ E) as [-> ->]. exact LS.
  - apply (choose_invalid sel _ _ labels K A). intros [P _]. destruct (P _ _ G') as [_ P2]. change (valid_value t = true) in P2. congruence.
Qed.
Print Assumptions C52_text.

(** The empty selector picks everything. *)
Theorem C52_everything : forall (FF : FloatFmt) (EE : ExprEnv) labels, choose [] labels = Val (JBool true).
Proof. done. Qed.
Print Assumptions C52_everything.

Definition web : jobj := [("app"%string, JStr "web"); ("tier"%string, JInt 2)].
Definition web_sel : jobj :=
  [("matchExpressions"%string, JList [wants "tier" "In" [JInt 1; JStr "2"]; wants "zone" "DoesNotExist" []]); ("matchLabels"%string, JMap [("app"%string, JStr "web")])].
Example C52_example : asks web_sel [("app"%string, JStr "web")] [[("key"%string, JStr "tier"); ("operator"%string, JStr "In"); ("values"%string, JList [JInt 1; JStr "2"])];
    [("key"%string, JStr "zone"); ("operator"%string, JStr "DoesNotExist"); ("values"%string, JList [])]]
  /\ choose web_sel web = Val (JBool true) /\ choose web_sel (("zone"%string, JStr "a") :: web) = Val (JBool false)
  /\ choose [("matchExpressions"%string, JList [wants "tier" "Near" []])] web = Err.
Proof. vm_compute. done. Qed.
Example C52_text_example : mget web "tier" = Some (JInt 2) /\ shown (JInt 2) = Some "2"%string /\ valid_key "tier" = true /\ valid_value "2" = true
  /\ choose [("matchLabels"%string, JMap [("tier"%string, JStr "2")])] web = Val (JBool true) /\ choose [("matchLabels"%string, JMap [("tier"%string, JStr "3")])] web = Val (JBool false).
Proof. vm_compute. done. Qed.
Example C52_valid_example : valid [("app"%string, JStr "web")] [[("key"%string, JStr "tier"); ("operator"%string, JStr "In"); ("values"%string, JList [JInt 1; JStr "2"])]]
  /\ ~ valid [] [[("key"%string, JStr "tier"); ("operator"%string, JStr "Near")]].
Proof.
  split.
  - split; [done|]. constructor; [|constructor]. split; [done|]. left. split; [by left|]. split; done.
  - intros [_ V]. apply Forall_inv in V. destruct V as [_ [([?|?] & _)|[[?|?] _]]]; done.
Qed.

(** Refuted: that all of a selector counts.  An entry that is not a map is ignored, and so
    is a matchLabels that is not a map, if there is a matchExpressions; without one, it
    is taken for the name of a label. *)
Theorem C52_ignored_refuted : forall (FF : FloatFmt) (EE : ExprEnv) labels x l, (forall m, x <> JMap m) ->
  choose [("matchExpressions"%string, JList (x :: l))] labels = choose [("matchExpressions"%string, JList l)] labels
  /\ choose [("matchExpressions"%string, JList l); ("matchLabels"%string, x)] labels = choose [("matchExpressions"%string, JList l)] labels
  /\ choose [("matchLabels"%string, x)] labels = choose [("matchLabels"%string, JMap [("matchLabels"%string, x)])] labels.
Proof.
  intros FF EE labels x l N. unfold choose, op_selector. cbn [as_list is_null orb].
  assert (E : forall y, mget [("matchExpressions"%string, y)] "matchLabels" = None /\ mget [("matchExpressions"%string, y)] "matchExpressions" = Some y
    /\ mget [("matchLabels"%string, y)] "matchLabels" = Some y /\ mget [("matchLabels"%string, y)] "matchExpressions" = None) by done.
  assert (E' : forall y z, mget [("matchExpressions"%string, y); ("matchLabels"%string, z)] "matchLabels" = Some z
    /\ mget [("matchExpressions"%string, y); ("matchLabels"%string, z)] "matchExpressions" = Some y) by done.
  unfold match_labels, selector_reqs. split_and!.
  - destruct (E (JList l)) as (-> & -> & _). destruct (E (JList (x :: l))) as (-> & -> & _). cbn [default collect].
    destruct x as [| | | | | |m]; try (by destruct (N m)); cbn; by destruct (collect label_req l).
  - destruct (E (JList l)) as (-> & -> & _). destruct (E' (JList l) x) as (-> & ->). by destruct x as [| | | | | |m]; try (by destruct (N m)).
  - destruct (E x) as (_ & _ & -> & ->). destruct (E (JMap [("matchLabels"%string, x)])) as (_ & _ & -> & ->). by destruct x as [| | | | | |m]; try (by destruct (N m)).
Qed.
Print Assumptions C52_ignored_refuted.
Example C52_ignored_example : choose [("matchExpressions"%string, JList [JStr "app in (db)"])] web = Val (JBool true)
  /\ choose [("matchExpressions"%string, JList []); ("matchLabels"%string, JList [JStr "app=db"])] web = Val (JBool true)
  /\ choose [("matchLabels"%string, JList [JStr "app=web"])] web = Val (JBool false).
Proof. vm_compute. done. Qed.
