(** C68: a periodic reconciliation repairs the target. *)
From Verif Require Import JsonModel ObjModel ZSetModel OpsModel ExecModel PipelineModel ReconcilerModel ZSetSpec OpsSpec GatherSpec ExecSpec JsonSpec CleanSpec PipelineSpec HealSpec.
From Verif Require Import CleanProofs JsonProofs JsonIdent ObjProofs ConvertProofs TargetProofs ReconcileProofs OptProofs PipeProofs2 SyncProofs HealProofs TestPipe PropsPipeline.

(** What a Sync does to a target [T] that may hold anything, because writes failed or because
    somebody else changed it.  Let [W] be the contents that the result on the current
    sources stands for.  An object is made what it is in [W], whatever it was, unless what
    the controller remembers about it, namely the last operation that it emitted for it, is
    already the document of the result; then the object is left as it is.
    Missing from the full statement, in which all objects would be as in [W]: the objects
    that are remembered ([C68_stuck_refuted]); pipelines of selections and projections
    after the join; results with at most one document for each name. *)
Theorem C68_repair_partial {FF : FloatFmt} : forall sortv target sources join ps g p0 p o ds p' out,
  fmt_ok -> fmt_inj -> gvk_ok target -> sources <> [] -> NoDup (map gvk_kind sources) ->
  forallb (basic_op (DD := json_docs_on clean)) ps = true -> Forall op_ok ps -> (forall jev, join = Some jev -> jev_ok jev) ->
  pipe_new clean target sources join ps = Some p0 -> pipeline_graph (map gvk_kind sources) join ps = Some g ->
  session clean sortv p0 p -> history_ok clean sources ∅ ds -> mirrors (p_src clean p) (after ds) -> target_ok clean target (p_tgt clean p) ->
  order_ok o -> (forall acc B, inputs_of clean (after ds) (map gvk_kind sources) acc -> exec_scratch sortv g acc B -> functional clean B) ->
  sync clean sortv o p = (p', Some out) ->
  exists acc B W, inputs_of clean (after ds) (map gvk_kind sources) acc /\ exec_scratch sortv g acc B /\ shows clean target B W
    /\ forall T i, (remembered clean (held_plain (p_tgt clean p)) B i -> apply_ops T out i = T i)
       /\ (~ remembered clean (held_plain (p_tgt clean p)) B i -> apply_ops T out i = W i).
Proof. exact (fun sortv target sources join ps g p0 p o ds p' out Hf Hi => sync_repairs clean sortv target sources join ps g p0 p o ds p' out (exact_clean Hf Hi)). Qed.
Print Assumptions C68_repair_partial.

(** If the documents of the result do not carry the apiVersion and kind of the target
    themselves, as those of most projections do not, then nothing counts as remembered
    where the result has a document: every object that should be there is there after the
    Sync and is as it should be.  Missing: objects that should not be there
    ([C68_orphan_refuted]). *)
Theorem C68_unstamped_partial {FF : FloatFmt} : forall sortv target sources join ps g p0 p o ds p' out,
  fmt_ok -> fmt_inj -> gvk_ok target -> sources <> [] -> NoDup (map gvk_kind sources) ->
  forallb (basic_op (DD := json_docs_on clean)) ps = true -> Forall op_ok ps -> (forall jev, join = Some jev -> jev_ok jev) ->
  pipe_new clean target sources join ps = Some p0 -> pipeline_graph (map gvk_kind sources) join ps = Some g ->
  session clean sortv p0 p -> history_ok clean sources ∅ ds -> mirrors (p_src clean p) (after ds) -> target_ok clean target (p_tgt clean p) ->
  order_ok o -> (forall acc B, inputs_of clean (after ds) (map gvk_kind sources) acc -> exec_scratch sortv g acc B -> functional clean B /\ unstamped clean target B) ->
  sync clean sortv o p = (p', Some out) ->
  exists acc B W, inputs_of clean (after ds) (map gvk_kind sources) acc /\ exec_scratch sortv g acc B /\ shows clean target B W
    /\ forall T i m, W i = Some m -> apply_ops T out i = Some m.
Proof.
  intros sortv target sources join ps g p0 p o ds p' out Hf Hi Hg Hs ND Hb Hok Hj Hp Hgr Hses HH HM HT Ho HF E.
  destruct (sync_repairs clean sortv target sources join ps g p0 p o ds p' out (exact_clean Hf Hi)) as (acc & B & W & HI & HS & Hsh & HR); try done; [by intros; eapply HF|].
  exists acc, B, W. split_and!; [done..|]. intros T i m Hm. destruct (HF _ _ HI HS) as [_ HU]. rewrite <- Hm. apply HR. unfold remembered.
  destruct (held_plain (p_tgt clean p) i) as [m'|] eqn:Em.
  - intros Hin. apply (HU i m' Hin). unfold held_plain in Em. case_bool_decide as Hpi; [|done]. destruct (HT _ m' Em) as (i' & d & Ek & Hpi' & Wd & Hdi & -> & _).
    apply skey_inj in Ek; [|done..]. assert (i' = i) as -> by (by destruct i, i'). by apply encapsulate_idem.
  - intros N. apply N. apply Hsh in Hm as (k & d & Hd & Hdi & _). by exists d, k.
Qed.
Print Assumptions C68_unstamped_partial.

(** A test for this: the last stage is a projection whose documents never have an
    apiVersion.  The stages before it are of any kind. *)
Theorem C68_projected {FF : FloatFmt} : forall sortv target kinds join ps ev g acc B,
  fmt_ok -> fmt_inj ->
  (forall d l d', ev d = Some l -> In d' l -> mget d' "apiVersion" = None) ->
  pipeline_graph kinds join (ps ++ [OProject ev]) = Some g -> exec_scratch sortv g acc B ->
  unstamped clean target B.
Proof.
  intros sortv target kinds join ps ev g acc B Hf Hi Hev Hg (zs & J & Em & HJ & HS) i d (k & Hd & Hdi) E.
  pose proof (pipeline_graph_eq _ _ _ _ Hg) as Eg. rewrite Eg in HS. cbn [g_chain] in HS.
  assert (E0 : forall ps : list (@op (json_docs_on clean)), map cn_op (user_chain ps) = ps) by (intros; unfold user_chain; by rewrite map_map, map_id). rewrite E0 in HS.
  destruct (scratch_last clean sortv ps ev (exact_clean Hf Hi) J B HS k d Hd) as (Hk & d0 & l & El & Hin).
  pose proof (Hev d0 l d El Hin) as Ha. rewrite <- E in Ha.
  assert (owf d) as Wd by (by eapply (proj2 (exact_clean Hf Hi))).
  destruct (encapsulate_get target d i) as (x & _ & Ex); [by apply owf_sorted|done|].
  rewrite Ex, mget_set_ne, mget_set_gvk_av in Ha by done. done.
Qed.
Print Assumptions C68_projected.

(** If the documents are objects of the target kind already and the controller has emitted
    what is right, then no Sync does anything, whatever the target holds. *)
Theorem C68_blind {FF : FloatFmt} : forall sortv target sources join ps g p0 p o ds p' out,
  fmt_ok -> fmt_inj -> gvk_ok target -> sources <> [] -> NoDup (map gvk_kind sources) ->
  forallb (basic_op (DD := json_docs_on clean)) ps = true -> Forall op_ok ps -> (forall jev, join = Some jev -> jev_ok jev) ->
  pipe_new clean target sources join ps = Some p0 -> pipeline_graph (map gvk_kind sources) join ps = Some g ->
  session clean sortv p0 p -> history_ok clean sources ∅ ds -> mirrors (p_src clean p) (after ds) -> target_ok clean target (p_tgt clean p) ->
  order_ok o -> (forall acc B, inputs_of clean (after ds) (map gvk_kind sources) acc -> exec_scratch sortv g acc B ->
     functional clean B /\ fits clean target B /\ shows clean target B (held_plain (p_tgt clean p))) ->
  sync clean sortv o p = (p', Some out) -> p_tgt clean p' = p_tgt clean p /\ forall T, apply_ops T out = T.
Proof.
  intros sortv target sources join ps g p0 p o ds p' out Hf Hi Hg Hs ND Hb Hok Hj Hp Hgr Hses HH HM HT Ho HF E.
  destruct (c21_core clean sortv target sources join ps g p0 p o ds (exact_clean Hf Hi)) as [C _]; try done; [by intros; eapply HF|].
  destruct (C p' out E) as (acc & B & HI & HS & _ & _ & _ & _ & Hn). destruct (HF _ _ HI HS) as (_ & Hfit & Hsh). by destruct (Hn Hfit Hsh) as [-> ->].
Qed.
Print Assumptions C68_blind.

(** Events whose operations leave the target as [T], for whatever reason; then Syncs whose
    operations are all carried out: the objects named [l] after each. *)
Definition heal (ps : list (@op (json_docs_on clean))) (T : contents) (l : list string) (ds : list delta) : option (list (list (string * bool))) :=
  (fun p =>
     let p1 := (pipe_run clean ex_sort std_order 0 p ds).1 in
     let '(p2, r1) := sync clean ex_sort std_order p1 in
     let T1 := apply_ops T (default [] r1) in
     let '(p3, r2) := sync clean ex_sort std_order p2 in
     let T2 := apply_ops T1 (default [] r2) in
     map (fun T : contents => map (fun n => (n, bool_decide (is_Some (T ("default"%string, n))))) l) [T; T1; T2]) <$> pipe_new clean tgt_gvk [pod_gvk] None ps.
(** All writes fail, or somebody deletes the objects: they never come back. *)
Theorem C68_stuck_refuted :
  heal ex_ps no_objects ["a"; "b"]%string ex_two = Some (replicate 3 [("a"%string, false); ("b"%string, false)])
  /\ heal ex_ps (apply_ops no_objects [Delta Upserted (view "a" "on"); Delta Upserted (view "b" "on")]) ["a"; "b"]%string ex_two = Some (replicate 3 [("a"%string, true); ("b"%string, true)]).
Proof. split; vm_compute; reflexivity. Qed.
Print Assumptions C68_stuck_refuted.
(** Without stamps they do come back, but an object that should not be there stays: the
    deletion of pod z was emitted and its write failed. *)
Theorem C68_orphan_refuted :
  heal [OProject ev_meta] (apply_ops no_objects [Delta Upserted (view "z" "on")]) ["a"; "z"]%string (Delta Added (pod "z" "on") :: ex_two ++ [Delta Deleted (pod "z" "on")])
  = Some [[("a"%string, false); ("z"%string, true)]; [("a"%string, true); ("z"%string, true)]; [("a"%string, true); ("z"%string, true)]].
Proof. vm_compute. reflexivity. Qed.
Print Assumptions C68_orphan_refuted.

(** The hypotheses of the theorems are met: the results of this pipeline on these sources
    have one document for each name and no stamps. *)
Example ex_C68 : fmt_ok /\ fmt_inj /\ gvk_ok tgt_gvk /\ history_ok clean [pod_gvk] ∅ ex_two /\ target_ok clean tgt_gvk ex_junk
  /\ forallb (basic_op (DD := json_docs_on clean)) [OProject ev_meta] = true /\ Forall op_ok [OProject ev_meta]
  /\ (forall g acc B, pipeline_graph (map gvk_kind [pod_gvk]) None [OProject ev_meta] = Some g ->
      inputs_of clean (after ex_two) (map gvk_kind [pod_gvk]) acc -> exec_scratch ex_sort g acc B -> functional clean B /\ unstamped clean tgt_gvk B).
Proof.
  destruct ev_meta_ok as (A1 & A2 & A3).
  assert (history_ok clean [pod_gvk] ∅ ex_two) as HH by (repeat (split; [event|]); exact I).
  split; [exact sci_ok|]. split; [exact sci_inj|]. split; [vm_compute; reflexivity|]. split; [done|]. split; [exact ex_junk_ok|]. split; [reflexivity|].
  split; [apply Forall_cons; split; [exact A1|by apply Forall_nil]|]. intros g acc B Hg HI HS. split.
  - eapply (C19_functional ex_sort pod_gvk [OProject ev_meta] g ex_two ex_two [] acc B sci_ok sci_inj); try done.
    + apply Forall_cons; split; [exact A3|by apply Forall_nil].
    + repeat (apply Forall_cons; split; [vm_compute; by eexists|]). by apply Forall_nil.
  - eapply (C68_projected ex_sort tgt_gvk _ None [] ev_meta g acc B sci_ok sci_inj); try done.
    intros d l d'. unfold ev_meta. destruct (mget d "metadata"); intros [= <-] [<-|[]]; done.
Qed.
