From Verif Require Import StatusModel StatusSpec.


Lemma push_stack_lastn l e : (length l <= stack_size)%nat -> push_stack l e = lastn stack_size (l ++ [e]).
Proof.
  intros HL. unfold push_stack, lastn. rewrite app_length. simpl length. case_decide as H.
  - rewrite H. replace (stack_size + 1 - stack_size)%nat with 1%nat by lia. destruct l; [done|]. simpl. done.
  - replace (length l + 1 - stack_size)%nat with 0%nat by lia. done.
Qed.
Lemma push_stack_le l e : (length l <= stack_size)%nat -> (length (push_stack l e) <= stack_size)%nat.
Proof. intros H. rewrite push_stack_lastn by done. unfold lastn. rewrite drop_length, app_length. simpl length. unfold stack_size in *. lia. Qed.
Lemma sstep_le s ev : (length (errs s) <= stack_size)%nat -> (length (errs (sstep s ev)) <= stack_size)%nat.
Proof. intros H. destruct ev; simpl; [by apply push_stack_le|by apply push_stack_le|]. rewrite take_length. lia. Qed.
Lemma history_le evs s : (length (errs s) <= stack_size)%nat -> (length (errs (foldl sstep s evs)) <= stack_size)%nat.
Proof. revert s. induction evs as [|ev evs IH]; intros s H; [done|]. simpl. apply IH. by apply sstep_le. Qed.

Lemma lastn_lastn {A} n (l : list A) x : (0 < n)%nat -> lastn n (lastn n l ++ [x]) = lastn n (l ++ [x]).
Proof.
  intros Hn. unfold lastn. rewrite !app_length, drop_length. simpl length.
  destruct (decide (length l <= n)%nat) as [H|H].
  - replace (length l - n)%nat with 0%nat by lia. rewrite drop_0. by replace (length l - 0 + 1 - n)%nat with (length l + 1 - n)%nat by lia.
  - replace (length l - (length l - n) + 1 - n)%nat with 1%nat by lia.
    assert (E : drop (length l - n) l ++ [x] = drop (length l - n) (l ++ [x])) by (rewrite drop_app_le by lia; done).
    rewrite E, drop_drop. f_equal. lia.
Qed.
Lemma pushes evs es : map is_push evs = map Some es -> errs (foldl sstep reporter_new evs) = lastn stack_size es.
Proof.
  revert es. induction evs as [|ev evs IH] using rev_ind; intros es E.
  - destruct es; [done|]. done.
  - destruct es as [|e es _] using rev_ind; [by destruct evs|]. rewrite !map_app in E. simpl in E. apply app_inj_tail in E as [E1 E2].
    specialize (IH es E1). rewrite foldl_app. simpl. rewrite <-(lastn_lastn stack_size es e) by (unfold stack_size; lia). rewrite <-IH.
    rewrite <-push_stack_lastn by (by apply history_le; simpl; unfold stack_size; lia).
    destruct ev; simpl in E2; [by injection E2 as ->|by injection E2 as ->|done].
Qed.

(** ** trim *)
Lemma cons_app_s c (s t : string) : String c s +:+ t = String c (s +:+ t).
Proof. reflexivity. Qed.
Lemma len_app (a b : string) : String.length (a +:+ b) = (String.length a + String.length b)%nat.
Proof. induction a as [|c a IH]; [done|]. rewrite cons_app_s. cbn. by rewrite IH. Qed.
Lemma len_take n s : String.length (stake n s) = (n `min` String.length s)%nat.
Proof. revert s. induction n as [|n IH]; intros [|c s]; simpl; auto. Qed.
Lemma len_drop n s : String.length (sdrop n s) = (String.length s - n)%nat.
Proof. revert s. induction n as [|n IH]; intros [|c s]; simpl; auto. Qed.
Lemma take_drop_s n s : stake n s +:+ sdrop n s = s.
Proof. revert s. induction n as [|n IH]; intros [|c s]; simpl; auto. rewrite cons_app_s. by rewrite IH. Qed.
Lemma trim_length s : (String.length (trim s) <= 245)%nat.
Proof.
  unfold trim. destruct (Nat.leb_spec (String.length s) (2 * trim_len + 5)) as [H|H]; [unfold trim_len in *; lia|].
  rewrite !len_app, len_take, len_drop. unfold trim_len in *. simpl String.length. lia.
Qed.
Lemma trim_short s : (String.length s <= 245)%nat -> trim s = s.
Proof. intros H. unfold trim. destruct (Nat.leb_spec (String.length s) (2 * trim_len + 5)) as [_|H2]; [done|]. unfold trim_len in *. lia. Qed.
Lemma trim_idem s : trim (trim s) = trim s.
Proof. apply trim_short, trim_length. Qed.
Lemma trim_long s : (245 < String.length s)%nat -> exists a m b, s = a +:+ m +:+ b /\ trim s = a +:+ "[...]" +:+ b /\ String.length a = 119%nat /\ String.length b = 120%nat.
Proof.
  intros H. unfold trim. destruct (Nat.leb_spec (String.length s) (2 * trim_len + 5)) as [H2|_]; [unfold trim_len in *; lia|].
  exists (stake (trim_len - 1) s), (stake (String.length s - trim_len - (trim_len - 1)) (sdrop (trim_len - 1) s)), (sdrop (String.length s - trim_len) s).
  assert (E : sdrop (String.length s - trim_len) s = sdrop (String.length s - trim_len - (trim_len - 1)) (sdrop (trim_len - 1) s)).
  { assert (G : forall n m t, sdrop (n + m) t = sdrop m (sdrop n t)). { induction n as [|n IH]; intros m [|c t]; simpl; auto; by destruct m. }
    rewrite <-G. f_equal. unfold trim_len in *. lia. }
  split; [|split; [done|]].
  - rewrite E, take_drop_s, take_drop_s. done.
  - rewrite len_take, len_drop. unfold trim_len in *. lia.
Qed.

(** ** The condition *)
Lemma critical_iff evs s : critical (foldl sstep s evs) = true <-> critical s = true \/ exists e, In (ECritical e) evs.
Proof.
  revert s. induction evs as [|ev evs IH]; intros s; simpl.
  - split; [by left|]. intros [?|[? []]]. done.
  - rewrite IH. split.
    + intros [H|(e & H)]; [|right; exists e; by right]. destruct ev; simpl in H; [by left|right; eexists; by left|by left].
    + intros [H|(e & [->|H])]; [|left; done|right; by exists e]. left. by destruct ev.
Qed.
Lemma ready_spec evs s : s = foldl sstep reporter_new evs ->
  (ready s = CTrue <-> report s = []) /\ (ready s = CFalse <-> report s <> [] /\ exists e, In (ECritical e) evs).
Proof.
  intros ->. pose proof (critical_iff evs reporter_new) as H. unfold ready, report. destruct (errs (foldl sstep reporter_new evs)) as [|e l]; simpl.
  - split; [done|]. split; [done|]. by intros [? _].
  - destruct (critical _).
    + split; [done|]. split; [|done]. intros _. split; [done|]. by destruct (proj1 H eq_refl).
    + split; [done|]. split; [done|]. intros [_ H2]. by assert (false = true) by (apply H; by right).
Qed.

(** ** Races *)
Lemma over_forever w es : (length w > stack_size)%nat ->
  r_errs (rrun (Racy w [Idle; Idle]) (flat_map (fun e => [(0%nat, e); (0%nat, e)]) es)) = w ++ es.
Proof.
  revert w. induction es as [|e es IH]; intros w H; simpl; [by rewrite app_nil_r|].
  unfold rstep at 2. simpl. rewrite bool_decide_eq_false_2 by lia. unfold rstep at 1. simpl.
  rewrite IH by (rewrite app_length; simpl; lia). by rewrite <-app_assoc.
Qed.
(** Nine messages, then two workers at once. *)
Definition nine : list (nat * string) := flat_map (fun e => [(0%nat, e); (0%nat, e)]) ["1"; "2"; "3"; "4"; "5"; "6"; "7"; "8"; "9"]%string.
Definition both : list (nat * string) := [(0%nat, "a"%string); (1%nat, "b"%string); (0%nat, "a"%string); (1%nat, "b"%string)].
Lemma race es : length (r_errs (rrun (Racy [] [Idle; Idle]) (nine ++ both ++ flat_map (fun e => [(0%nat, e); (0%nat, e)]) es))) = (11 + length es)%nat.
Proof.
  unfold rrun. rewrite !foldl_app.
  assert (E : foldl (fun st ie => rstep st ie.1 ie.2) (foldl (fun st ie => rstep st ie.1 ie.2) (Racy [] [Idle; Idle]) nine) both
    = Racy ["1"; "2"; "3"; "4"; "5"; "6"; "7"; "8"; "9"; "a"; "b"]%string [Idle; Idle]) by reflexivity.
  rewrite E. pose proof (over_forever ["1"; "2"; "3"; "4"; "5"; "6"; "7"; "8"; "9"; "a"; "b"]%string es) as H. unfold rrun in H.
  rewrite H by (simpl; unfold stack_size; lia). by rewrite app_length.
Qed.
