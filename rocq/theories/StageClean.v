(** Tidy expressions yield clean values. *)
From Verif Require Import JsonModel ObjModel ZSetModel OpsModel ExecModel PipelineModel ValueModel PipeJsonModel StageModel.
From Verif Require Import ExprSpec JsonSpec CleanSpec PipelineSpec StageSpec JsonProofs CleanProofs ExprProofs.
#[local] Open Scope Z_scope.

(** *** UTF-8 *)
Lemma utf8_app a b : utf8_ok a = true -> utf8_ok b = true -> utf8_ok (a +:+ b) = true.
Proof.
  intros Ha Hb. revert a Ha. fix IH 1. intros [|c1 a] Ha; [done|]. change (String c1 a +:+ b) with (String c1 (a +:+ b)). cbn [utf8_ok] in Ha |- *.
  destruct (N_of_ascii c1 <? 128)%N; [by apply IH|]. destruct a as [|c2 a]; [done|]. change (String c2 a +:+ b) with (String c2 (a +:+ b)). cbn iota in Ha |- *.
  destruct (rune2 c1 c2); [by apply IH|]. destruct a as [|c3 a]; [done|]. change (String c3 a +:+ b) with (String c3 (a +:+ b)). cbn iota in Ha |- *.
  destruct (rune3 c1 c2 c3); [by apply IH|]. destruct a as [|c4 a]; [done|]. change (String c4 a +:+ b) with (String c4 (a +:+ b)). cbn iota in Ha |- *.
  destruct (rune4 c1 c2 c3 c4); [by apply IH|done].
Qed.
Lemma utf8_enc_int n : utf8_ok (enc_int n) = true.
Proof.
  destruct (enc_int_num n) as [H _]. induction (enc_int n) as [|c s IH]; [done|]. cbn [all_num] in H. apply andb_prop in H as [Hc Hs].
  cbn [utf8_ok]. assert ((N_of_ascii c <? 128)%N = true) as ->; [|by apply IH].
  unfold num_char in Hc. clear -Hc. destruct c as [[] [] [] [] [] [] [] []]; vm_compute in Hc |- *; done.
Qed.

Section clean.
Context {FF : FloatFmt} {EE : ExprEnv}.
#[local] Notation jc v := (jclean v = true).

Lemma clean_list l : Forall (fun v => jc v) l -> jc (JList l).
Proof. induction 1 as [|v l H F IH]; [done|]. cbn in *. by rewrite H. Qed.
Lemma clean_set m k v : jc (JMap m) -> utf8_ok k = true -> jc v -> jc (JMap (mset m k v)).
Proof.
  intros [H1 H2]%jclean_map Hk Hv. apply jclean_map_intro; [by apply ksorted_keys, ksorted_set, keys_sorted_ok|]. clear H1.
  induction H2 as [|[k' v'] m [Hk' Hv'] F IH]; [apply List.Forall_cons; [done|apply List.Forall_nil]|]. cbn [mset]. destruct (scmp k k').
  - apply List.Forall_cons; done.
  - apply List.Forall_cons; [done|]. apply List.Forall_cons; done.
  - apply List.Forall_cons; [done|]. apply IH.
Qed.
Lemma clean_del m k : jc (JMap m) -> jc (JMap (mdel m k)).
Proof.
  intros [H1 H2]%jclean_map. apply jclean_map_intro; [by apply ksorted_keys, ksorted_del, keys_sorted_ok|].
  rewrite Forall_forall in *. intros x Hx. apply H2. by eapply mdel_sub.
Qed.
Lemma clean_get m k v : jc (JMap m) -> mget m k = Some v -> utf8_ok k = true /\ jc v.
Proof. intros [_ H]%jclean_map Hg. apply mget_in in Hg. rewrite Forall_forall in H. by apply H in Hg. Qed.
Lemma clean_entries m kv : jc (JMap m) -> In kv m -> utf8_ok kv.1 = true /\ jc kv.2.
Proof. intros [_ H]%jclean_map Hg. rewrite List.Forall_forall in H. by apply H. Qed.

Variable HE : env_clean.
Definition ctx_clean (ctx : ectx) : Prop := jc (c_object ctx) /\ jc (c_subject ctx).
Definition rclean (r : res json) : Prop := forall v, r = Val v -> jc v.
Definition cclo (f : clo) : Prop := forall ctx, ctx_clean ctx -> rclean (f ctx).
Definition lclean (r : res (list json)) : Prop := forall l, r = Val l -> Forall (fun v => jc v) l.

Lemma bind_inv {A B} (r : res A) (f : A -> res B) v : rbind r f = Val v -> exists a, r = Val a /\ f a = Val v.
Proof. destruct r; try done. intros H. by exists v0. Qed.
Lemma clean_raw q d : jc d -> rclean (get_raw q d).
Proof.
  intros Hd v. unfold get_raw. destruct (jp_get q d) as [[|x l]|] eqn:E; try done; intros [= <-]; [done|].
  destruct HE as (H & _). specialize (H q d _ Hd E). by inversion H.
Qed.
Lemma clean_path ctx k : ctx_clean ctx -> utf8_ok k = true -> rclean (get_path ctx k).
Proof.
  intros [Ho Hs] Hk v. unfold get_path. destruct k as [|c k]; [by intros [= <-]|].
  destruct (decide (c = dollar)); [|by intros [= <-]].
  set (q := if decide (String c k = "$.") then _ else _). destruct q as [|c1 [|c2 q]]; [by apply clean_raw|by apply clean_raw|].
  destruct (_ && _); by apply clean_raw.
Qed.
Lemma clean_sets m : jc (JMap m) -> forall d, jc (JMap d) -> jc (JMap (foldl (fun d kv => mset d kv.1 kv.2) d m)).
Proof.
  intros Hm. assert (G : forall l, (forall kv, In kv l -> utf8_ok kv.1 = true /\ jc kv.2) -> forall d, jc (JMap d) -> jc (JMap (foldl (fun d kv => mset d kv.1 kv.2) d l))).
  { induction l as [|[k v] l IH]; intros Hl d Hd; [done|]. cbn [foldl]. apply IH; [intros; apply Hl; by right|]. destruct (Hl (k, v) (or_introl eq_refl)). by apply clean_set. }
  apply G. intros kv. by apply clean_entries.
Qed.
Lemma clean_dels {A} (m : list (string * A)) : forall d, jc (JMap d) -> jc (JMap (foldl (fun d kv => mdel d kv.1) d m)).
Proof. induction m as [|[k v] l IH]; intros d Hd; [done|]. cbn [foldl]. apply IH. by apply clean_del. Qed.
Lemma clean_set_path ctx k v d d' : ctx_clean ctx -> utf8_ok k = true -> jc v -> jc (JMap d) -> set_path ctx k v d = Val d' -> jc (JMap d').
Proof.
  intros Hc Hk Hv Hd. unfold set_path. destruct k as [|c k]; [done|]. intros (w & Hw & H)%bind_inv.
  assert (jc w) as Cw by (destruct v; try (injection Hw as <-; done); by eapply clean_path; [exact Hc| |exact Hw]).
  destruct (decide (String c k = "$.")).
  - destruct w; try done. injection H as <-. apply clean_sets; [done|]. by apply clean_dels.
  - destruct (decide (c = dollar)).
    + destruct (jp_set _ w (JMap d)) as [r|] eqn:E; [|done]. destruct r; try done. injection H as <-. destruct HE as (_ & H & _). by eapply H; [| | |exact E].
    + injection H as <-. by apply clean_set.
Qed.
Lemma clean_as_string v s : jc v -> as_string v = Some s -> utf8_ok s = true.
Proof.
  intros Hv. destruct v; try done; intros [= <-]; [apply utf8_enc_int| |done].
  destruct HE as (_ & _ & _ & H & _). apply utf8_app; [done|]. apply utf8_app; [apply H|done].
Qed.
Lemma clean_collect {B} (f : json -> option B) (Q : B -> Prop) l r : (forall v b, jc v -> f v = Some b -> Q b) -> Forall (fun v => jc v) l -> collect f l = Some r -> Forall Q r.
Proof.
  intros Hf F. revert r. induction F as [|v l Hv F IH]; intros r; cbn; [intros [= <-]; apply List.Forall_nil|].
  destruct (f v) as [b|] eqn:Eb; [|done]. cbn. destruct (collect f l) as [r'|]; [|done]. cbn. intros [= <-]. apply List.Forall_cons; [by eapply Hf|by apply IH].
Qed.

(** *** Loops *)
Lemma clean_subject ctx x : ctx_clean ctx -> jc x -> ctx_clean (with_subject ctx x).
Proof. by intros [? ?] ?. Qed.
Lemma clean_junction stop fs ctx : rclean (junction stop fs ctx).
Proof. induction fs as [|f fs IH]; cbn; [by intros v [= <-]|]. intros v (b & _ & H)%bind_inv. destruct (Bool.eqb b stop); [by injection H as <-|by apply IH]. Qed.
Lemma clean_quant a b c f ctx l : rclean (quant_loop a b c f ctx l).
Proof. induction l as [|x l IH]; cbn; [by intros v [= <-]|]. intros v (t & _ & H)%bind_inv. destruct (Bool.eqb t b); [by injection H as <-|by apply IH]. Qed.
Lemma clean_cond fs ctx : Forall cclo fs -> ctx_clean ctx -> rclean (op_cond fs ctx).
Proof.
  intros F Hc v. destruct fs as [|c [|t [|e [|? ?]]]]; try done; cbn; intros (b & _ & H)%bind_inv; apply Forall_cons in F as [_ F]; apply Forall_cons in F as [Ft F].
  - destruct b; [by eapply Ft|by injection H as <-].
  - apply Forall_cons in F as [Fe _]. destruct b; [by eapply Ft|by eapply Fe].
Qed.
Lemma clean_defined fs ctx : Forall cclo fs -> ctx_clean ctx -> rclean (op_defined_or fs ctx).
Proof.
  intros F Hc v. destruct fs as [|a [|b [|? ?]]]; try done; cbn. intros (x & Hx & H)%bind_inv. apply Forall_cons in F as [Fa F]. apply Forall_cons in F as [Fb _].
  destruct (is_null x); [by eapply Fb|]. injection H as <-. by eapply Fa.
Qed.
Lemma clean_switch ps ctx : Forall (fun p => forall fs, p = Some fs -> Forall cclo fs) ps -> ctx_clean ctx -> rclean (switch_loop ps ctx).
Proof.
  intros F Hc. induction F as [|p ps Hp F IH]; cbn; [by intros v [= <-]|]. intros v. destruct p as [[|c [|a [|? ?]]]|]; try done.
  intros (b & _ & H)%bind_inv. specialize (Hp _ eq_refl). apply Forall_cons in Hp as [_ Hp]. apply Forall_cons in Hp as [Ha _].
  destruct b; [by eapply Ha|by apply IH].
Qed.
Lemma clean_filter f ctx l : Forall (fun v => jc v) l -> lclean (filter_loop f ctx l).
Proof.
  induction 1 as [|x l Hx F IH]; cbn; [intros r [= <-]; apply List.Forall_nil|]. intros r (b & _ & H)%bind_inv. apply bind_inv in H as (r' & Hr & H). injection H as <-.
  destruct b; [apply List.Forall_cons; [done|]|]; by apply IH.
Qed.
Lemma clean_map f ctx l : cclo f -> ctx_clean ctx -> Forall (fun v => jc v) l -> lclean (map_loop f ctx l).
Proof.
  intros Hf Hc. induction 1 as [|x l Hx F IH]; cbn; [intros r [= <-]; apply List.Forall_nil|]. intros r (b & Hb & H)%bind_inv. apply bind_inv in H as (r' & Hr & H). injection H as <-.
  apply List.Forall_cons; [|by apply IH]. eapply Hf; [|exact Hb]. by apply clean_subject.
Qed.
Lemma clean_on_list ctx g k : cclo g -> ctx_clean ctx -> (forall l, Forall (fun v => jc v) l -> rclean (k l)) -> rclean (on_list ctx g k).
Proof.
  intros Hg Hc Hk v (x & Hx & H)%bind_inv. apply bind_inv in H as (l & Hl & H). destruct x; try done. injection Hl as <-.
  eapply Hk; [|exact H]. apply jclean_list. by eapply Hg.
Qed.
Lemma clean_list_loop fs ctx : Forall cclo fs -> ctx_clean ctx -> lclean (list_loop fs ctx).
Proof.
  intros F Hc. induction F as [|f fs Hf F IH]; cbn; [intros r [= <-]; apply List.Forall_nil|]. intros r (b & Hb & H)%bind_inv. apply bind_inv in H as (r' & Hr & H). injection H as <-.
  apply List.Forall_cons; [by eapply Hf|by apply IH].
Qed.
Lemma clean_dict m ctx : Forall (fun kf : string * clo => utf8_ok kf.1 = true /\ cclo kf.2) m -> ctx_clean ctx ->
  forall acc, jc (JMap acc) -> forall r, dict_loop m ctx acc = Val r -> jc (JMap r).
Proof.
  intros F Hc. induction F as [|[k f] m [Hk Hf] F IH]; cbn; intros acc Ha r; [by intros [= <-]|]. intros (v & Hv & H)%bind_inv. apply bind_inv in H as (acc' & Ha' & H).
  eapply IH; [|exact H]. eapply clean_set_path; [exact Hc|exact Hk| |exact Ha|exact Ha']. by eapply Hf.
Qed.
Lemma unpack_clean l : Forall (fun v => jc v) l -> Forall (fun v => jc v) (unpack l).
Proof. intros F. destruct l as [|v l]; [done|]. destruct v; try done. apply Forall_cons in F as [F _]. by apply jclean_list. Qed.

(** *** Operators *)
Definition code_ok (c : opcode) : Prop :=
  match c with
  | OFloat | OUnknown | OPlain | OEmpty => False
  | OValue f => forall v w, jc v -> f v = Val w -> jc w
  | _ => True
  end.
Lemma clean_bool (r : res json) : (forall v, r = Val v -> exists b, v = JBool b) -> rclean r.
Proof. intros H v Hv. by destruct (H v Hv) as [b ->]. Qed.
Lemma cmp_bool fi ff v w : cmp_op fi ff v = Val w -> exists b, w = JBool b.
Proof. unfold cmp_op. destruct (as_pair v) as [[]|]; try done; intros [= <-]; by eexists. Qed.
Lemma range_clean a n : jc (JList (map (fun i : nat => JInt (a + Z.of_nat i)) (seq 0 n))).
Proof. apply clean_list, List.Forall_forall. intros v Hv. by apply in_map_iff in Hv as (i & <- & _). Qed.
Lemma base36_utf8 s : base36 s = true -> utf8_ok s = true.
Proof.
  induction s as [|c s IH]; [done|]. cbn [base36]. intros [Hc Hs]%andb_prop. cbn [utf8_ok]. assert ((N_of_ascii c <? 128)%N = true) as ->; [|by apply IH].
  clear -Hc. destruct c as [[] [] [] [] [] [] [] []]; vm_compute in Hc |- *; done.
Qed.
Lemma base36_take n : forall s, base36 s = true -> base36 (String.substring 0 n s) = true.
Proof. induction n as [|n IH]; intros [|c s]; try done. cbn [base36 String.substring]. intros [-> H]%andb_prop. by apply IH. Qed.
Lemma base36_pad n : forall s, base36 s = true -> base36 (s +:+ repeat_x n) = true.
Proof.
  induction s as [|c s IH]; [intros _; by induction n|]. cbn [base36]. intros [Hc H]%andb_prop. change (String c s +:+ repeat_x n) with (String c (s +:+ repeat_x n)). cbn [base36]. by rewrite Hc, IH.
Qed.
Lemma hash_base36 v w : op_hash v = Val w -> exists s, w = JStr s /\ base36 s = true.
Proof.
  unfold op_hash. destruct (enc v) as [js|]; [|done]. destruct HE as (_ & _ & _ & _ & H). destruct (_ <? _)%nat; intros [= <-]; eexists; (split; [done|]).
  - by apply base36_pad.
  - by apply base36_take.
Qed.
Lemma tidy_code op : op ∈ tidy_ops -> code_ok (opcode_of op).
Proof.
  assert (B : forall f, (forall v w, f v = Val w -> exists b, w = JBool b) -> code_ok (OValue f)) by (intros f Hf v w _ Hw; by destruct (Hf v w Hw) as [b ->]).
  intros H. unfold tidy_ops in H. do 16 (apply elem_of_cons in H; destruct H as [->|H]; [exact I|]).
  apply elem_of_cons in H; destruct H as [->|H]; [change (code_ok (OValue (fun v => Val (JBool (is_null v))))); apply B; intros v w [= <-]; by eexists|].
  apply elem_of_cons in H; destruct H as [->|H]; [change (code_ok (OValue (fun v => Val (JBool (negb (is_null v)))))); apply B; intros v w [= <-]; by eexists|].
  apply elem_of_cons in H; destruct H as [->|H]; [change (code_ok (OValue (fun v => Val (JBool (negb (is_null v)))))); apply B; intros v w [= <-]; by eexists|].
  apply elem_of_cons in H; destruct H as [->|H]; [change (code_ok (OValue (fun v => match as_bool v with Some b => Val (JBool (negb b)) | None => Err end))); apply B; intros v w; destruct (as_bool v); [intros [= <-]; by eexists|done]|].
  apply elem_of_cons in H; destruct H as [->|H]; [change (code_ok (OValue op_eq)); apply B; intros v w; unfold op_eq; destruct (as_list v) as [[|a [|b [|? ?]]]|]; try done; intros [= <-]; by eexists|].
  apply elem_of_cons in H; destruct H as [->|H].
  { change (code_ok (OValue op_rnd)). intros v w _. unfold op_rnd. destruct (as_list_of as_int v) as [[|a [|b [|? ?]]]|]; try done. destruct (_ <=? 0); [done|]. by intros [= <-]. }
  do 4 (apply elem_of_cons in H; destruct H as [->|H]; [apply B; intros v w Hw; by eapply cmp_bool|]).
  apply elem_of_cons in H; destruct H as [->|H].
  { change (code_ok (OValue op_selector)). apply B. intros v w. unfold op_selector. destruct (as_list v) as [[|a [|b [|? ?]]]|]; try done. destruct (_ || _); [intros [= <-]; by eexists|].
    destruct a, b; try done. destruct (match_labels _ _); [|done]. intros [= <-]; by eexists. }
  apply elem_of_cons in H; destruct H as [->|H].
  { change (code_ok (OValue op_len)). intros v w _. unfold op_len. destruct (as_list v); [|done]. by intros [= <-]. }
  apply elem_of_cons in H; destruct H as [->|H].
  { change (code_ok (OValue op_in)). apply B. intros v w. unfold op_in. destruct (as_list v) as [[|a [|b [|? ?]]]|]; try done. destruct (as_list b); [|done]. intros [= <-]; by eexists. }
  apply elem_of_cons in H; destruct H as [->|H].
  { change (code_ok (OValue op_concat)). intros v w Hv. unfold op_concat, as_list_of. destruct v as [| | | | |l|]; try done. cbn [as_list mbind option_bind].
    destruct (collect as_string l) as [ss|] eqn:E; [|done]. cbn. intros [= <-]. apply (clean_collect as_string (fun s => utf8_ok s = true)) in E; [|intros; by eapply clean_as_string|by apply jclean_list].
    cbn. clear -E. assert (G : forall acc, utf8_ok acc = true -> utf8_ok (foldl String.append acc ss) = true); [|by apply G].
    induction E as [|s ss Hs E IH]; intros acc Ha; [done|]. cbn [foldl]. apply IH. by apply utf8_app. }
  apply elem_of_cons in H; destruct H as [->|H]; cycle 1.
  { apply elem_of_cons in H; destruct H as [->|H]; [|by apply elem_of_nil in H]. change (code_ok (OValue op_hash)). intros v w _ Hw. apply hash_base36 in Hw as (s & -> & Hs). by apply base36_utf8. }
  change (code_ok (OValue op_range)). intros v w _. unfold op_range. destruct (as_list_of as_int v) as [[|a [|b [|? ?]]]|]; try done.
  destruct (_ <? 0); [done|]. intros [= <-]. apply range_clean.
Qed.

(** *** Evaluation *)
Record pclean (p : parts) : Prop := {
  pc_arg : forall f, p_arg p = Some f -> cclo f;
  pc_args : forall fs, p_args p = Some (Some fs) -> Forall cclo fs;
  pc_pairs : forall ps, p_pairs p = Some (Some ps) -> Forall (fun q => forall fs, q = Some fs -> Forall cclo fs) ps;
  pc_val : jc (p_val p);
  pc_list : forall fs, p_list p = Some fs -> Forall cclo fs;
  pc_map : forall m, p_map p = Some m -> Forall (fun kf : string * clo => utf8_ok kf.1 = true /\ cclo kf.2) m }.
Lemma args_clean {A} (a : option (option A)) (k : A -> res json) : (forall x, a = Some (Some x) -> rclean (k x)) -> rclean (with_args a k).
Proof. intros H. destruct a as [[x|]|]; try done. by apply H. Qed.
Lemma find_in {A} (f : A -> bool) l x : List.find f l = Some x -> In x l.
Proof. intros H. by apply List.find_some in H as [? _]. Qed.
Lemma in_order_clean m : Forall (fun kf : string * clo => utf8_ok kf.1 = true /\ cclo kf.2) m -> Forall (fun kf : string * clo => utf8_ok kf.1 = true /\ cclo kf.2) (in_order m).
Proof.
  intros F. apply Forall_forall. intros x Hx. unfold in_order in Hx. apply elem_of_list_omap in Hx as (k & _ & Hk). apply find_in in Hk. rewrite List.Forall_forall in F. by apply F.
Qed.
Lemma node_clean op p : op ∈ tidy_ops -> pclean p -> cclo (eval_node op p).
Proof.
  intros Hop [P1 P2 P3 P4 P5 P6] ctx Hc. pose proof (tidy_code op Hop) as HC. unfold eval_node.
  set (operand := match p_arg p with Some f => f ctx | None => Val (p_val p) end).
  assert (HO : rclean operand) by (intros v; unfold operand; destruct (p_arg p) as [f|]; [by apply (P1 f)|by intros [= <-]]).
  assert (HQ : forall a b c, rclean (with_args (p_args p) (fun fs => match fs with [f; g] => on_list ctx g (quant_loop a b c f ctx) | _ => Err end))).
  { intros a b c. apply args_clean. intros fs Hfs. specialize (P2 fs Hfs). destruct fs as [|f [|g [|? ?]]]; try done.
    apply Forall_cons in P2 as [_ P2]. apply Forall_cons in P2 as [Hg _]. apply clean_on_list; [done|done|]. intros l _. apply clean_quant. }
  destruct (opcode_of op); try (destruct HC; fail).
  - intros v (x & _ & H)%bind_inv. destruct x; try done. by injection H as <-.
  - intros v (x & _ & H)%bind_inv. destruct (as_int x); [|done]. by injection H as <-.
  - intros v (x & Hx & H)%bind_inv. apply bind_inv in H as (s & Hs & H). apply bind_inv in H as (w & Hw & H). injection H as <-.
    destruct (is_str _ w); [by apply HE|]. eapply (clean_path ctx s Hc); [|exact Hw]. eapply clean_as_string; [by apply HO|]. by destruct (as_string x); [injection Hs as ->|].
  - intros v (l & Hl & H)%bind_inv. injection H as <-. apply clean_list, unpack_clean. destruct (p_arg p) as [f|].
    + apply bind_inv in Hl as (x & Hx & Hl). destruct x; try done. injection Hl as <-. apply jclean_list. by eapply (P1 f eq_refl).
    + destruct (p_list p) as [fs|]; [|done]. by eapply clean_list_loop; [exact (P5 fs eq_refl)|exact Hc|].
  - destruct (p_arg p) as [f|].
    + intros v (x & Hx & H)%bind_inv. destruct x; try done. injection H as <-. by eapply (P1 f eq_refl).
    + destruct (p_map p) as [m|]; [|done]. intros v (r & Hr & H)%bind_inv. injection H as <-. eapply clean_dict; [apply in_order_clean, (P6 m eq_refl)|exact Hc| |exact Hr]. done.
  - by intros v [= <-].
  - apply args_clean. intros fs Hfs. apply clean_cond; [by apply P2|done].
  - apply args_clean. intros fs Hfs. apply clean_defined; [by apply P2|done].
  - apply args_clean. intros ps Hps. unfold op_switch. destruct ps; [done|]. apply clean_switch; [by apply P3|done].
  - apply args_clean. intros fs Hfs. apply clean_junction.
  - apply args_clean. intros fs Hfs. apply clean_junction.
  - apply args_clean. intros fs Hfs. specialize (P2 fs Hfs). destruct fs as [|f [|g [|? ?]]]; try done. apply Forall_cons in P2 as [_ P2]. apply Forall_cons in P2 as [Hg _].
    apply clean_on_list; [done|done|]. intros l Hl v (r & Hr & H)%bind_inv. injection H as <-. apply clean_list. by eapply clean_filter.
  - apply HQ.
  - apply HQ.
  - apply HQ.
  - apply args_clean. intros fs Hfs. specialize (P2 fs Hfs). destruct fs as [|f [|g fs]]; try done. apply Forall_cons in P2 as [Hf P2]. apply Forall_cons in P2 as [Hg _].
    apply clean_on_list; [done|done|]. intros l Hl v (r & Hr & H)%bind_inv. injection H as <-. apply clean_list. by eapply clean_map; [exact Hf|exact Hc|exact Hl|].
  - destruct (p_arg p) as [g|]; [|done]. intros v (x & Hx & H)%bind_inv. eapply HC; [|exact H]. by eapply (P1 g eq_refl).
Qed.

Lemma tidy_list es : (fix go es := match es with [] => true | e :: es => tidy e && go es end) es = true -> Forall (fun e => tidy e = true) es.
Proof. induction es as [|e es IH]; [intros _; apply List.Forall_nil|]. intros [H1 H2]%andb_prop. apply List.Forall_cons; [done|by apply IH]. Qed.
Lemma tidy_map m : (fix go (m : list (string * expr)) := match m with [] => true | (k, e) :: m => utf8_ok k && tidy e && go m end) m = true ->
  Forall (fun kv => utf8_ok kv.1 = true /\ tidy kv.2 = true) m.
Proof. induction m as [|[k e] es IH]; [intros _; apply List.Forall_nil|]. intros [[H1 H2]%andb_prop H3]%andb_prop. apply List.Forall_cons; [done|by apply IH]. Qed.
(** The induction hypothesis also covers the arguments of the arguments. *)
Lemma tidy_inv op arg l : tidy (Expr op arg l) = true -> op ∈ tidy_ops /\ (forall a, arg = Some a -> tidy a = true)
  /\ (forall v, l = LVal v -> jc v) /\ (forall es, l = LList es -> Forall (fun e => tidy e = true) es) /\ (forall m, l = LMap m -> Forall (fun kv => utf8_ok kv.1 = true /\ tidy kv.2 = true) m).
Proof.
  intros H. cbn [tidy] in H. apply andb_prop in H as [H H3]. apply andb_prop in H as [H1 H2]. split; [by apply bool_decide_eq_true in H1|]. split; [by intros a ->|].
  split; [by intros v ->|]. split; [intros es ->; by apply tidy_list|]. intros m ->. by apply tidy_map.
Qed.
Definition good (e : expr) : Prop := tidy e = true -> cclo (eval e).
Definition good1 (e : expr) : Prop := good e /\ forall fs, tidy e = true -> exp_list eval e = Some fs -> Forall cclo fs.
Lemma exp_list_good1 e : good e -> (forall es, ex_lit e = LList es -> Forall good es) -> good1 e.
Proof.
  intros Hg He. split; [done|]. intros fs Ht. destruct e as [op arg l]. unfold exp_list. case_decide.
  - destruct l as [|es|]; try done. intros [= <-]. specialize (He es eq_refl). apply tidy_inv in Ht as (_ & _ & _ & Ht & _). specialize (Ht es eq_refl).
    clear -He Ht. induction He as [|e es Hg He IH]; [apply List.Forall_nil|]. apply Forall_cons in Ht as [H1 H2]. cbn. apply List.Forall_cons; [by apply Hg|by apply IH].
  - intros [= <-]. apply List.Forall_cons; [by apply Hg|apply List.Forall_nil].
Qed.
Definition good2 (e : expr) : Prop := good1 e /\ forall ps, tidy e = true -> exp_list (fun p => exp_list eval p) e = Some ps -> Forall (fun q => forall fs, q = Some fs -> Forall cclo fs) ps.
Lemma eval_clean e : good2 e.
Proof.
  induction e as [op arg l IHa IHl IHm] using expr_all.
  assert (G : good (Expr op arg l)).
  { intros Ht. apply tidy_inv in Ht as (Hop & Ha & Hv & Hes & Hm). cbn [eval]. apply node_clean; [done|]. constructor; cbn.
    - intros f. destruct arg as [a|]; [|done]. intros [= <-]. apply (IHa a eq_refl). by apply Ha.
    - intros fs. destruct arg as [a|]; [|done]. intros [= H]. by eapply (IHa a eq_refl); [apply Ha|].
    - intros ps. destruct arg as [a|]; [|done]. intros [= H]. by eapply (IHa a eq_refl); [apply Ha|].
    - destruct l; [by apply Hv|done|done].
    - intros fs. destruct l as [|es|]; try done. intros [= <-]. specialize (Hes es eq_refl). specialize (IHl es eq_refl). clear -Hes IHl.
      induction IHl as [|e es Hg He IH]; [apply List.Forall_nil|]. apply Forall_cons in Hes as [H1 H2]. cbn. apply List.Forall_cons; [by apply Hg|by apply IH].
    - intros m. destruct l as [| |m0]; try done. intros [= <-]. specialize (Hm m0 eq_refl). specialize (IHm m0 eq_refl). clear -Hm IHm.
      induction IHm as [|[k e] es Hg He IH]; [apply List.Forall_nil|]. apply Forall_cons in Hm as [[H0 H1] H2]. cbn. apply List.Forall_cons; [split; [done|by apply Hg]|by apply IH]. }
  assert (G1 : good1 (Expr op arg l)).
  { apply exp_list_good1; [done|]. intros es E. cbn in E. specialize (IHl es E). eapply Forall_impl; [exact IHl|]. intros e [[He _] _]. done. }
  split; [done|]. intros ps Ht. unfold exp_list at 1. case_decide.
  - destruct l as [|es|]; try done. intros [= <-]. specialize (IHl es eq_refl). apply tidy_inv in Ht as (_ & _ & _ & Ht & _). specialize (Ht es eq_refl).
    clear -IHl Ht. induction IHl as [|e es [[_ Hg] _] He IH]; [apply List.Forall_nil|]. apply Forall_cons in Ht as [H1 H2]. cbn. apply List.Forall_cons; [intros fs Hfs; by eapply Hg|by apply IH].
  - intros [= <-]. apply List.Forall_cons; [|apply List.Forall_nil]. intros fs Hfs. by eapply G1.
Qed.
Lemma eval_doc_clean e d v : tidy e = true -> clean d = true -> eval_doc e d = Some v -> jc v.
Proof.
  intros Ht Hd. unfold eval_doc. destruct (eval e _) as [w| |] eqn:E; try done. intros [= <-]. destruct (eval_clean e) as [[Hg _] _].
  eapply (Hg Ht (Ctx (JMap d) JNull)); [|exact E]. done.
Qed.

(** *** Stages *)
Lemma merge_right_clean ma mb acc : jc (JMap mb) -> jc (JMap acc) -> jc (JMap (merge_right ma mb acc)).
Proof.
  intros Hb. assert (F : forall kv, In kv mb -> utf8_ok kv.1 = true /\ jc kv.2) by (intros; by eapply clean_entries). clear Hb. revert acc.
  induction mb as [|[k y] mb IH]; intros acc Ha; [done|]. cbn. apply IH; [intros; apply F; by right|]. destruct (mget ma k); [done|].
  destruct (F (k, y) (or_introl eq_refl)). by apply clean_set.
Qed.
Lemma merge_clean a : forall b c, jc a -> jc b -> ValueModel.merge a b = Some c -> jc c.
Proof.
  induction a as [|bo|n|f|s|l IHl|m IHm] using json_rect'; intros b c Ha Hb H.
  1: by injection H as <-.
  1-4: destruct b; try done; by injection H as <-.
  - destruct b as [| | | | |lb|]; try done; injection H as <-; try done. apply clean_list. apply Forall_app. split; by apply jclean_list.
  - destruct b as [| | | | | |mb]; try done; try (injection H as <-; done). cbn in H.
    assert (G : forall l acc r, (forall kv, In kv l -> utf8_ok kv.1 = true /\ jc kv.2) -> Forall (fun kv => forall b c, jc kv.2 -> jc b -> ValueModel.merge kv.2 b = Some c -> jc c) l ->
      jc (JMap acc) -> merge_left ValueModel.merge mb l acc = Some r -> jc (JMap r)).
    { induction l as [|[k x] l IH]; intros acc r Hl HF Hacc; cbn; [by intros [= <-]|]. apply Forall_cons in HF as [H1 HF]. destruct (Hl (k, x) (or_introl eq_refl)) as [Hk Hx].
      destruct (mget mb k) as [y|] eqn:Ey.
      - destruct (ValueModel.merge x y) as [z|] eqn:Ez; [|done]. cbn. apply IH; [intros; apply Hl; by right|done|]. apply clean_set; [done|done|].
        eapply H1; [exact Hx| |exact Ez]. by apply (clean_get mb k).
      - apply IH; [intros; apply Hl; by right|done|]. by apply clean_set. }
    destruct (merge_left ValueModel.merge mb m m) as [r|] eqn:Er; [|done]. cbn in H. injection H as <-. apply merge_right_clean; [done|].
    eapply (G m m r); [intros kv Hkv; exact (clean_entries m kv Ha Hkv)| |done|exact Er]. exact IHm.
Qed.
Lemma merge_objects_clean us : forall v r, jc v -> Forall (fun u => clean u = true) us -> merge_objects v us = Some r -> jc r.
Proof.
  induction us as [|u us IH]; intros v r Hv F; cbn; [by intros [= <-]|]. apply Forall_cons in F as [Hu F].
  destruct (ValueModel.merge v (JMap u)) as [v'|] eqn:E; [|done]. cbn. apply IH; [|done]. exact (merge_clean v (JMap u) v' Hv Hu E).
Qed.
Lemma set_raw_clean path v d d' : utf8_ok path = true -> jc v -> clean d = true -> set_raw path v d = Some d' -> clean d' = true.
Proof.
  intros Hp Hv Hd. unfold set_raw. destruct (jp_set path v (JMap d)) as [r|] eqn:E; [|done]. cbn. destruct r; try done. intros [= <-].
  destruct HE as (_ & H & _). exact (H path v (JMap d) (JMap m) Hp Hv Hd E).
Qed.
Lemma join_space_utf8 l : Forall (fun s => utf8_ok s = true) l -> utf8_ok (join_space l) = true.
Proof.
  induction 1 as [|s l Hs F IH]; [done|]. cbn [join_space]. destruct l; [done|]. apply utf8_app; [done|]. by apply (utf8_app " ").
Qed.
Lemma sprint_s_utf8 v : jc v -> utf8_ok (sprint_s v) = true.
Proof.
  induction v as [|bo|n|f|s|l IHl|m IHm] using json_rect'; intros Hv.
  - done.
  - by destruct bo.
  - cbn [sprint_s]. apply utf8_app; [done|]. apply utf8_app; [apply utf8_enc_int|done].
  - cbn [sprint_s]. apply utf8_app; [done|]. apply utf8_app; [apply HE|done].
  - done.
  - cbn [sprint_s]. apply utf8_app; [done|]. apply utf8_app; [|done]. apply join_space_utf8. apply jclean_list in Hv.
    induction IHl as [|v l Hg He IH]; [apply List.Forall_nil|]. apply Forall_cons in Hv as [H1 H2]. apply List.Forall_cons; [by apply Hg|by apply IH].
  - cbn [sprint_s]. apply utf8_app; [done|]. apply utf8_app; [|done]. apply join_space_utf8. apply jclean_map in Hv as [_ Hv].
    induction IHm as [|[k v] m Hg He IH]; [apply List.Forall_nil|]. apply Forall_cons in Hv as [[H0 H1] H2]. apply List.Forall_cons; [|by apply IH].
    apply utf8_app; [done|]. apply (utf8_app ":"); [done|]. by apply Hg.
Qed.
Lemma format_name_utf8 v i : jc v -> utf8_ok (format_name v i) = true.
Proof.
  intros Hv. unfold format_name. apply utf8_app; [destruct v; try done; by apply sprint_s_utf8|]. apply (utf8_app "-"); [done|apply utf8_enc_int].
Qed.
Lemma literal_utf8 e path : tidy e = true -> literal_string e = Some path -> utf8_ok path = true.
Proof.
  destruct e as [op arg l]. intros (_ & _ & Hv & _)%tidy_inv. unfold literal_string. cbn. destruct l as [v| |]; try done. apply clean_as_string. by apply Hv.
Qed.
Lemma tidy_stage_clean s : tidy_stage s = true -> stage_clean s.
Proof.
  destruct s as [kd e]. unfold tidy_stage, stage_clean. cbn [st_kind st_expr]. destruct kd; try done; intros Ht.
  - intros d d' Hd [H|(us & H & Hm)]; [exact (eval_doc_clean e d (JMap d') Ht Hd H)|]. apply eval_doc_clean in H; [|done|done]. apply jclean_list in H.
    eapply (merge_objects_clean us JNull (JMap d')); [done| |exact Hm]. apply List.Forall_forall. intros u Hu. rewrite List.Forall_forall in H. apply H. by apply in_map.
  - intros d l d' Hd (path & vs & Hp & Hv & Hl & H) Hin. apply elem_of_list_In, elem_of_list_lookup in Hin as [i Hi].
    assert (is_Some (vs !! i)) as [v Hvi] by (apply lookup_lt_is_Some; rewrite <-Hl; by apply lookup_lt_Some in Hi).
    destruct (H i v d' Hvi Hi) as (d1 & nm & H1 & H2 & H3).
    assert (jc v) as Cv. { destruct Hv as [Hv|[_ ->]]; [|done]. apply eval_doc_clean in Hv; [|done|done]. apply jclean_list in Hv. rewrite Forall_forall in Hv. apply Hv. by apply elem_of_list_lookup_2 in Hvi. }
    assert (clean d1 = true) as C1 by (eapply set_raw_clean; [by eapply literal_utf8|exact Cv|exact Hd|exact H1]).
    eapply (set_raw_clean name_path); [done| |exact C1|exact H3]. apply format_name_utf8. by eapply clean_raw; [|exact H2].
Qed.
End clean.
