(** A float formatter with all the assumed properties, and test data for the
    pipeline examples. *)
From Verif Require Import JsonModel ObjModel ZSetModel OpsModel ExecModel PipelineModel ReconcilerModel ZSetSpec OpsSpec GatherSpec ExecSpec JsonSpec CleanSpec PipelineSpec.
From Verif Require Import JsonProofs JsonIdent CleanProofs ObjProofs ConvertProofs TargetProofs PipeProofs2 SyncProofs ExecMisc GatherDet.

Definition sci (f : spec_float) : option string :=
  match f with
  | S754_zero s => Some (if s then "-0" else "0")
  | S754_finite s m e => Some (enc_int (if s then Z.neg m else Z.pos m) +:+ "e" +:+ enc_int e)
  | _ => None
  end.
#[global] Instance sci_fmt : FloatFmt := {| fmt_float := sci |}.

Lemma all_num_cat a b : all_num a = true -> all_num b = true -> all_num (a +:+ b) = true.
Proof.
  induction a as [|c a IH]; [done|]. change (String c a +:+ b) with (String c (a +:+ b)). cbn [all_num].
  intros [H1 H2]%andb_true_iff H3. rewrite H1. by apply IH.
Qed.
Lemma sci_ok : fmt_ok.
Proof.
  intros [[]|[]| |s m e] t; simpl; try done; intros [= <-]; try done.
  destruct (enc_int_num (if s then Z.neg m else Z.pos m)) as [H1 H2], (enc_int_num e) as [H3 H4]. split.
  - destruct (enc_int (if s then Z.neg m else Z.pos m)); done.
  - apply all_num_cat; [done|]. exact H3.
Qed.
Lemma split_e a b c d : point_free a -> point_free b -> a +:+ "e" +:+ c = b +:+ "e" +:+ d -> a = b /\ c = d.
Proof.
  unfold point_free. revert b. induction a as [|x a IH]; intros [|y b] Ha Hb E.
  - injection E as E. split; [done|exact E].
  - change (String y b +:+ "e" +:+ d) with (String y (b +:+ "e" +:+ d)) in E. injection E as <- _. done.
  - change (String x a +:+ "e" +:+ c) with (String x (a +:+ "e" +:+ c)) in E. injection E as -> _. done.
  - change (String y b +:+ "e" +:+ d) with (String y (b +:+ "e" +:+ d)) in E. change (String x a +:+ "e" +:+ c) with (String x (a +:+ "e" +:+ c)) in E.
    injection E as -> E. cbn [has_point] in Ha, Hb. apply orb_false_iff in Ha as [_ Ha]. apply orb_false_iff in Hb as [_ Hb].
    destruct (IH b Ha Hb E) as [-> ->]. done.
Qed.
Lemma sci_inj : fmt_inj.
Proof.
  assert (Z0 : forall n e (t : string), t = "0" \/ t = "-0" -> enc_int n +:+ "e" +:+ enc_int e <> t).
  { intros n e t Ht E. assert (has_point (enc_int n +:+ "e" +:+ enc_int e) = true).
    { clear. induction (enc_int n) as [|c s IH]; [done|]. change (String c s +:+ "e" +:+ enc_int e) with (String c (s +:+ "e" +:+ enc_int e)).
      cbn [has_point]. rewrite IH. by rewrite orb_true_r. }
    rewrite E in H. by destruct Ht as [-> | ->]. }
  intros [s|s| |s m e] [s'|s'| |s' m' e'] t; simpl; try done.
  - destruct s, s'; intros H1 H2; rewrite <-H1 in H2; done.
  - intros [= <-] [= E]. exfalso. eapply Z0; [|exact E]. destruct s; auto.
  - intros [= <-] [= E]. exfalso. eapply Z0; [|symmetry; exact E]. destruct s'; auto.
  - intros [= <-] [= E]. apply split_e in E as [E1 E2]; [|apply enc_int_point|apply enc_int_point].
    apply (inj pretty) in E1. apply (inj pretty) in E2. subst e'. destruct s, s'; by simplify_eq.
Qed.

#[global] Hint Extern 0 Docs => exact (json_docs_on clean) : typeclass_instances.

(** ** Objects *)
Definition pod_gvk : gvk := GVK "" "v1" "Pod".
Definition svc_gvk : gvk := GVK "" "v1" "Service".
Definition tgt_gvk : gvk := GVK "op.view.dcontroller.io" "v1alpha1" "PodView".
Definition obj (kd ns name phase : string) : jobj :=
  [("apiVersion"%string, JStr "v1"); ("kind"%string, JStr kd);
   ("metadata"%string, JMap [("name"%string, JStr name); ("namespace"%string, JStr ns)]); ("phase"%string, JStr phase)].
Definition pod (name phase : string) : jobj := obj "Pod" "default" name phase.
Definition svc (name phase : string) : jobj := obj "Service" "default" name phase.

(** ** Stages *)
(** Select the documents whose phase is not "off". *)
Definition ev_on : @evaluator (json_docs_on clean) := fun d =>
  match mget d "phase" with Some (JStr s) => if decide (s = "off"%string) then Some [] else Some [d] | _ => Some [d] end.
(** Keep the metadata only. *)
Definition ev_meta : @evaluator (json_docs_on clean) := fun d =>
  match mget d "metadata" with Some v => Some [[("metadata"%string, v)]] | None => Some [[]] end.
(** Metadata and phase, as an object of the target kind. *)
Definition ev_view : @evaluator (json_docs_on clean) := fun d =>
  match mget d "metadata", mget d "phase" with
  | Some v, Some ph => Some [[("apiVersion"%string, JStr "op.view.dcontroller.io/v1alpha1"); ("kind"%string, JStr "PodView"); ("metadata"%string, v); ("phase"%string, ph)]]
  | Some v, None => Some [[("apiVersion"%string, JStr "op.view.dcontroller.io/v1alpha1"); ("kind"%string, JStr "PodView"); ("metadata"%string, v)]]
  | _, _ => Some [[]]
  end.
(** One object for all: the name is fixed. *)
Definition ev_one : @evaluator (json_docs_on clean) := fun d =>
  Some [[("metadata"%string, JMap [("name"%string, JStr "all"); ("namespace"%string, JStr "default")])]].
(** Join on equal phases, named after the first object. *)
Definition jev_phase : @join_evaluator (json_docs_on clean) := fun t =>
  match t with
  | [a; b] =>
      match mget a "phase", mget b "phase", mget a "metadata" with
      | Some (JStr x), Some (JStr y), Some v => if decide (x = y) then Some [[("metadata"%string, v); ("phase"%string, JStr x)]] else Some []
      | _, _, _ => Some []
      end
  | _ => Some []
  end.

Lemma clean_parts m k v : clean m = true -> mget m k = Some v -> jclean v = true.
Proof.
  unfold clean. cbn [jclean]. intros [_ H]%andb_true_iff E. induction m as [|[k' v'] m IH]; [done|].
  apply andb_true_iff in H as [[_ H1]%andb_true_iff H2]. cbn [mget] in E. case_decide; [by simplify_eq|auto].
Qed.

Lemma exact_sci : exact clean.
Proof. exact (exact_clean sci_ok sci_inj). Qed.
Lemma ev_ok_any (ev : @evaluator (json_docs_on clean)) : ev_ok ev.
Proof. intros a b k Ha Hb. assert (a = b) as -> by (by eapply (proj1 exact_sci)). by destruct (ev b). Qed.
Lemma keyed_clean (m : jobj) : is_Some (@key (json_docs_on clean) m) <-> clean m = true.
Proof.
  split; [intros [k Hk]; simpl in Hk; by destruct (clean m)|]. intros Hc. destruct (clean_key clean m Hc Hc) as [k Hk]. by exists k.
Qed.
Lemma ev_on_ok : op_ok (OSelect ev_on) /\ op_total (OSelect ev_on) /\ keeps_names clean (OSelect ev_on).
Proof.
  assert (H : forall d, exists l, ev_on d = Some l /\ (l = [] \/ l = [d])).
  { intros d. unfold ev_on. destruct (mget d "phase") as [[]|]; try (eexists; split; [reflexivity|by right]).
    case_decide; eexists; (split; [reflexivity|auto]). }
  assert (HK : ev_keyed ev_on).
  { intros d l d' Hd E Hin. destruct (H d) as (l' & E' & Hl). assert (l' = l) as -> by congruence. destruct Hl as [-> | ->]; [done|]. by destruct Hin as [<-|]. }
  split; [split; [apply ev_ok_any|done]|]. split; [split; [split; [apply ev_ok_any|done]|]|].
  - intros d _. destruct (H d) as (l & -> & _). by eexists.
  - intros d l E. destruct (H d) as (l' & E' & Hl). assert (l' = l) as -> by congruence. destruct Hl as [-> | ->]; simpl; (split; [lia|]); [done|]. by intros d' [<-|].
Qed.
Lemma doc_id_meta_eq (d d' : jobj) : mget d' "metadata" = mget d "metadata" -> doc_id d' = doc_id d.
Proof. intros E. unfold doc_id. by rewrite E. Qed.
Lemma proj_ok (ev : @evaluator (json_docs_on clean)) :
  (forall d, exists d', ev d = Some [d'] /\ mget d' "metadata" = mget d "metadata" /\ (clean d = true -> clean d' = true)) ->
  op_ok (OProject ev) /\ op_total (OProject ev) /\ keeps_names clean (OProject ev).
Proof.
  intros H.
  assert (HK : ev_keyed ev).
  { intros d l x Hd E Hin. destruct (H d) as (d' & E' & _ & Hc). rewrite E' in E. injection E as <-. destruct Hin as [<-|[]].
    apply keyed_clean, Hc, keyed_clean, Hd. }
  assert (HS : ev_single ev). { intros d l E. destruct (H d) as (d' & E' & _). rewrite E' in E. by injection E as <-. }
  split; [split; [apply ev_ok_any|done]|]. split; [split; [split; [apply ev_ok_any|done]|]|].
  - split; [|done]. intros d _. destruct (H d) as (l & -> & _). by eexists.
  - intros d l E. destruct (H d) as (d' & E' & Em & _). rewrite E' in E. injection E as <-. split; [simpl; lia|]. intros x [<-|[]]. by apply doc_id_meta_eq.
Qed.
Lemma ev_meta_ok : op_ok (OProject ev_meta) /\ op_total (OProject ev_meta) /\ keeps_names clean (OProject ev_meta).
Proof.
  apply proj_ok. intros d. unfold ev_meta. destruct (mget d "metadata") as [v|] eqn:E; eexists; (split; [reflexivity|]); (split; [by rewrite ?E|]); intros Hc; [|done].
  apply clean_parts in E; [|done]. unfold clean. simpl. by rewrite E.
Qed.
Lemma ev_view_ok : op_ok (OProject ev_view) /\ op_total (OProject ev_view) /\ keeps_names clean (OProject ev_view).
Proof.
  apply proj_ok. intros d. unfold ev_view. destruct (mget d "metadata") as [v|] eqn:E.
  - destruct (mget d "phase") as [ph|] eqn:E2; eexists; (split; [reflexivity|]); (split; [done|]); intros Hc; apply clean_parts in E; try done.
    + apply clean_parts in E2; [|done]. unfold clean. cbn -[utf8_ok]. rewrite E, E2. reflexivity.
    + unfold clean. cbn -[utf8_ok]. rewrite E. reflexivity.
  - eexists. by split.
Qed.
