(** The first controller of the other specification of the EndpointSlice example. *)
From Verif Require Import JsonModel ObjModel ZSetModel OpsModel ExecModel PipelineModel ValueModel PipeJsonModel StageModel ExampleModel EndpointModel.
From Verif Require Import ExprSpec ZSetSpec OpsSpec ExecSpec JsonSpec CleanSpec PipelineSpec StageSpec StageRunSpec ExampleSpec EndpointSpec EndpointSpec2.
From Verif Require Import JsonProofs ObjProofs CleanProofs ExprProofs2 ExprProofs3 ConvertProofs PipeProofs PipeProofs2 PipeProofs3 StageNames StageProofs StageClean StageRunProofs DeclProofs PropsExpr PropsStage PropsStageRun ExampleProofs ExampleProofs2 ExampleProofs3 ExampleProofs4 ExampleProofs5 StageChain EndpointProofs.
#[local] Open Scope string_scope.

Definition nv_name : expr := opl "@concat" [strE "$.spec.serviceName"; strE "-"; strE "$.spec.ports.protocol"; strE "-"; strE "$.spec.ports.port"].
Definition nv_project : expr := dictE [("metadata", dictE [("name", nv_name); ("namespace", strE "$.metadata.namespace")]); ("spec", strE "$.spec")].
Notation nv_stages := [Stage KSelect sv_select; Stage KProject sv_project; Stage KUnwind (strE "$.spec.ports"); Stage KProject nv_project].
Lemma named_stages : unmarshal_pipeline named_ports_json = Val nv_stages.
Proof. reflexivity. Qed.
Definition port_str (port : json) : string := match at_path ["protocol"] port with JStr s => s | _ => EmptyString end.
Definition port_num (port : json) : nat := match at_path ["port"] port with JInt z => Z.to_nat z | _ => 0%nat end.
Lemma port_str_is port pr k : a_port_of port pr k -> port_str port = pr /\ port_num port = k.
Proof. intros (H1 & _ & H2). unfold port_str, port_num. rewrite H1, H2. split; [done|lia]. Qed.

(** *** Names *)
Fixpoint no_dash (s : string) : bool := match s with EmptyString => true | String c s => negb (bool_decide (c = "-"%char)) && no_dash s end.
Lemma dash_inj a b s t : no_dash s = true -> no_dash t = true -> a +:+ "-" +:+ s = b +:+ "-" +:+ t -> a = b /\ s = t.
Proof.
  intros Hs Ht. assert (G : forall x u, no_dash (x +:+ "-" +:+ u) = true -> False).
  { induction x as [|c x IH]; intros u H; [done|]. change (String c x +:+ "-" +:+ u) with (String c (x +:+ "-" +:+ u)) in H. cbn [no_dash] in H. apply andb_prop in H as [_ H]. by eapply IH. }
  revert b. induction a as [|c a IH]; intros [|d b] E.
  - by injection E as ->.
  - exfalso. change ("" +:+ "-" +:+ s) with (String "-" s) in E. change (String d b +:+ "-" +:+ t) with (String d (b +:+ "-" +:+ t)) in E. injection E as _ ->. by eapply G.
  - exfalso. change ("" +:+ "-" +:+ t) with (String "-" t) in E. change (String c a +:+ "-" +:+ s) with (String c (a +:+ "-" +:+ s)) in E. injection E as _ <-. by eapply G.
  - change (String c (a +:+ "-" +:+ s) = String d (b +:+ "-" +:+ t)) in E. injection E as -> E. by destruct (IH b E) as [-> ->].
Qed.
Lemma digits_dash s : all_digits s = true -> no_dash s = true.
Proof. induction s as [|c s IH]; [done|]. cbn [all_digits no_dash]. intros [Hc Hs]%andb_prop. rewrite (IH Hs), andb_true_r. rewrite bool_decide_eq_false_2; [done|]. intros ->. vm_compute in Hc. done. Qed.
Lemma letters_dash s : letters s = true -> no_dash s = true.
Proof. induction s as [|c s IH]; [done|]. cbn [letters no_dash]. intros [Hc Hs]%andb_prop. rewrite (IH Hs), andb_true_r. rewrite bool_decide_eq_false_2; [done|]. intros ->. vm_compute in Hc. done. Qed.
Lemma letters_slash s : letters s = true -> has_slash s = false.
Proof. induction s as [|c s IH]; [done|]. cbn [letters]. intros [Hc Hs]%andb_prop. rewrite has_slash_cons, (IH Hs), orb_false_r. apply bool_decide_eq_false_2. intros ->. vm_compute in Hc. done. Qed.
Lemma word_text s : word s -> text s.
Proof. intros [H1 H2]. destruct s as [|c s]; [done|]. cbn [letters] in H2. apply andb_prop in H2 as [Hc _]. split; intros ->; vm_compute in Hc; done. Qed.
Lemma full_split svc pr k : full_name svc pr k = (svc +:+ "-" +:+ pr) +:+ "-" +:+ enc_int (Z.of_nat k).
Proof. unfold full_name. by rewrite !app_assoc_s. Qed.
Lemma full_inj svc pr k svc' pr' k' : word pr -> word pr' -> full_name svc pr k = full_name svc' pr' k' -> svc = svc' /\ pr = pr' /\ k = k'.
Proof.
  intros [_ W] [_ W'] E. rewrite !full_split in E. apply indexed_inj in E as [E ->]. apply dash_inj in E as [-> ->]; [done|by apply letters_dash..].
Qed.
Lemma full_slash svc pr k : has_slash svc = false -> word pr -> has_slash (full_name svc pr k) = false.
Proof.
  intros H [_ W]. rewrite full_split. apply name_slash. induction svc as [|c svc IH]; [change (has_slash (String (ch 45) pr) = false); rewrite has_slash_cons; by apply letters_slash|]. change (has_slash (String c (svc +:+ "-" +:+ pr)) = false).
  rewrite has_slash_cons in *. apply orb_false_elim in H as [-> H]. by rewrite IH.
Qed.
Lemma full_text svc pr k : text svc -> text (full_name svc pr k).
Proof. by destruct svc. Qed.

Section named.
Context {FF : FloatFmt} {EE : ExprEnv}.
Hypothesis HP : reads_fields.
Hypothesis HF : sets_fields.
Hypothesis HQ : reads_quoted.
Hypothesis HO : is_order iterate.
Hypothesis HE : env_clean.
Notation yes := (fun _ : jobj => True).
Notation ns_at d := (str_at ["metadata"; "namespace"] d).
Notation name_at d := (str_at ["metadata"; "name"] d).
(** @concat prints numbers. *)
Lemma concat_all es ctx vs ss : all_give es ctx vs -> match vs with v :: _ => not_list v | [] => True end -> Forall2 (fun v s => v = JStr s \/ exists n, v = JInt n /\ s = enc_int n) vs ss ->
  gives (opl "@concat" es) ctx (JStr (String.concat EmptyString ss)).
Proof. intros H HU F. apply (C43_concat_partial FF EE (listE es) ctx vs ss); [|done]. pose proof (list_gives es ctx vs H) as E. by rewrite (unpack_id _ HU) in E. Qed.
Definition nv_q2 (d : jobj) : Prop := exists ns n ty ports, d = sv_doc ns n n ty ports /\ text ns /\ text n /\ list_or_null ports /\ Forall (fun port => exists pr k, a_port_of port pr k) (items ports).
Definition nv_q3 (d : jobj) : Prop := exists ns n svc ty port pr k, d = sv_doc ns n svc ty port /\ text ns /\ text svc /\ a_port_of port pr k.
Definition nv_doc (ns svc : string) (ty port : json) : jobj := sv_doc ns (full_name svc (port_str port) (port_num port)) svc ty port.
Definition nv_g4 (d : jobj) : list jobj := [nv_doc (ns_at d) (str_at ["spec"; "serviceName"] d) (at_ ["spec"; "type"] d) (at_ ["spec"; "ports"] d)].
Notation sv_g1 := (fun d : jobj => if annotated d then [d] else []).
Notation sv_g2 := (fun d : jobj => [sv_doc (ns_at d) (name_at d) (name_at d) (at_ ["spec"; "type"] d) (at_ ["spec"; "ports"] d)]).
Notation sv_g3 := (fun d : jobj => imap (fun i v => sv_doc (ns_at d) (port_name (name_at d) i) (name_at d) (at_ ["spec"; "type"] d) v) (items (at_ ["spec"; "ports"] d))).
Lemma nv_project_gives ns n svc ty port pr k : text ns -> text svc -> a_port_of port pr k -> projected nv_project (sv_doc ns n svc ty port) (nv_doc ns svc ty port).
Proof.
  intros T1 T2 HA. destruct (port_str_is _ _ _ HA) as [E1 E2]. unfold nv_doc. rewrite E1, E2. destruct HA as (A1 & A2 & A3). left. unfold eval_doc.
  assert (gives nv_project (Ctx (JMap (sv_doc ns n svc ty port)) JNull) (JMap (sv_doc ns (full_name svc pr k) svc ty port))) as ->; [|done]. unfold nv_project.
  apply (two_gives HO "metadata" "spec" _ _ _ (JMap [("name", JStr (full_name svc pr k)); ("namespace", JStr ns)]) (JMap [("ports", port); ("serviceName", JStr svc); ("type", ty)])); [reflexivity| |exact I| |exact I|reflexivity].
  - apply (two_gives HO "name" "namespace" _ _ _ (JStr (full_name svc pr k)) (JStr ns)); [reflexivity| | | | |reflexivity].
    + change (full_name svc pr k) with (String.concat "" [svc; "-"; pr; "-"; enc_int (Z.of_nat k)]). unfold nv_name. apply (concat_all _ _ [JStr svc; JStr "-"; JStr pr; JStr "-"; JInt (Z.of_nat k)]).
      * repeat (apply Forall2_cons_2; [first [by apply lit_gives|idtac]|]); [..|apply Forall2_nil_2].
        -- by_path HP ["spec"; "serviceName"]; [by apply text_now|reflexivity].
        -- by_path HP ["spec"; "ports"; "protocol"]; change (is_str "@now" (at_path ["protocol"] port) = false) || exact A1. rewrite A1. by apply text_now, word_text.
        -- by_path HP ["spec"; "ports"; "port"]; change (is_str "@now" (at_path ["port"] port) = false) || exact A3. by rewrite A3.
      * done.
      * repeat (apply Forall2_cons_2; [first [by left|right; by eexists]|]). apply Forall2_nil_2.
    + by apply text_inert, full_text.
    + by_path HP ["metadata"; "namespace"]; [by apply text_now|reflexivity].
    + by apply text_inert.
  - by_path HP ["spec"]; reflexivity.
Qed.
Definition nv_g : jobj -> list jobj := fun d => flat_map (fun d => flat_map (fun d => flat_map (fun d => flat_map (fun x => [x]) (nv_g4 d)) (sv_g3 d)) (sv_g2 d)) (sv_g1 d).
Lemma nv_chain : chain named_service nv_stages nv_g yes.
Proof.
  unfold nv_g. apply (chain_cons _ named_service); [done| |].
  { intros d [_ Hd]. split.
    - exists (annotated d). split; [|done]. unfold eval_doc. destruct HQ as (Q1 & _). cbn [st_expr]. unfold sv_select. by rewrite (exists_gives enabled_path d (annotation_of d)).
    - destruct (annotated d); [|apply List.Forall_nil]. apply List.Forall_cons; [done|apply List.Forall_nil]. }
  apply (chain_cons _ nv_q2 _ _ _ sv_g2); [done| |].
  { intros d [_ (Hd & HA & _)]. split; [eexists; split; [by apply (sv_project_gives HP HO)|done]|]. apply List.Forall_cons; [|apply List.Forall_nil].
    pose proof Hd as ((ns & n & L1 & L2 & L3 & L4) & HL & _). rewrite (str_at_is _ _ _ L1), (str_at_is _ _ _ L2). eexists _, _, _, _. split; [reflexivity|]. done. }
  apply (chain_cons _ nv_q3 _ _ _ sv_g3); [done| |].
  { intros d [_ (ns & n & ty & ports & -> & T1 & T2 & HL & HA)]. split.
    - apply (unwind_does HP HF ["spec"; "ports"] (sv_doc ns n n ty ports) n (fun i v => sv_doc ns (port_name n i) n ty v)); [done|words|done|done|].
      intros i v _. exists (sv_doc ns n n ty v). split_and!; reflexivity.
    - apply List.Forall_forall. intros x Hx. apply in_imap in Hx as (i & p & Hp & ->). rewrite List.Forall_forall in HA. destruct (HA p) as (pr & k & H); [apply elem_of_list_In; by apply (elem_of_list_lookup_2 _ i)|].
      eexists _, _, _, _, _, pr, k. split; [reflexivity|]. done. }
  apply (chain_cons _ yes _ _ _ nv_g4); [done| |by apply chain_nil].
  intros d [_ (ns & n & svc & ty & port & pr & k & -> & T1 & T2 & HA)]. split; [|by apply List.Forall_forall]. eexists. split; [by eapply nv_project_gives|]. reflexivity.
Qed.
Notation nv_out := (fun d => if annotated d then map (nv_doc (ns_at d) (name_at d) (at_ ["spec"; "type"] d)) (ports_of d) else []).
Lemma nv_clean : Forall stage_clean nv_stages.
Proof. repeat (apply List.Forall_cons; [apply (C51_tidy _ _ HE); vm_compute; reflexivity|]). apply List.Forall_nil. Qed.
Notation named_services := (Forall (fun d : delta => named_service (stripped (d_obj d)))).
Lemma named_in {ds d} : history_ok clean [service] ∅ ds -> named_services ds -> In d (of_kind "Service" (after ds)) -> named_service d /\ clean d = true.
Proof. intros HH HC Hd. destruct (of_kind_in [service] _ "Service" _ ltac:(done) HH Hd) as (? & ? & x & Hx). split; [|done]. by eapply (after_all named_service). Qed.
Lemma imap_flat {A B C} (f : nat -> A -> B) (g : B -> list C) (h : A -> C) l : (forall i a, g (f i a) = [h a]) -> flat_map g (imap f l) = map h l.
Proof. revert f. induction l as [|a l IH]; intros f H; [done|]. cbn [imap flat_map map]. rewrite H. cbn [app]. f_equal. apply (IH (fun i => f (S i))). intros. apply H. Qed.
Lemma nv_yields sortv ds R : history_ok clean [service] ∅ ds -> named_services ds -> yields sortv [service] nv_stages (after ds) R -> Permutation (flat_map nv_out (of_kind "Service" (after ds))) R.
Proof.
  intros HH HC (s & [= <-] & HM). apply (chain_means _ _ _ _ _ nv_chain nv_clean) in HM.
  - rewrite <-HM. erewrite flat_map_ext; [reflexivity|]. intros d. unfold nv_g, ports_of. destruct (annotated d); [|done]. cbn [flat_map]. rewrite !app_nil_r. symmetry.
    apply imap_flat. intros i a. reflexivity.
  - apply List.Forall_forall. intros d Hd. destruct (named_in HH HC Hd). done.
Qed.
Lemma named_named ds : named_services ds -> named_history ds.
Proof. intros H. eapply Forall_impl; [exact H|]. clear H. intros d (((ns & n & H) & _) & _). eexists. by apply (located_id _ ns n). Qed.
Lemma nv_out_in ds x : history_ok clean [service] ∅ ds -> named_services ds -> In x (flat_map nv_out (of_kind "Service" (after ds))) <->
  exists d ns svc port pr k, In d (of_kind "Service" (after ds)) /\ located d ns svc /\ annotated d = true /\ In port (ports_of d) /\ a_port_of port pr k /\ x = sv_doc ns (full_name svc pr k) svc (at_ ["spec"; "type"] d) port.
Proof.
  intros HH HC. rewrite in_flat_map. split.
  - intros (d & Hd & Hx). destruct (annotated d) eqn:E; [|done]. apply in_map_iff in Hx as (p & <- & Hp). destruct (named_in HH HC Hd) as [(((ns & svc & L) & _) & HA & _) _].
    rewrite List.Forall_forall in HA. destruct (HA p Hp) as (pr & k & H). exists d, ns, svc, p, pr, k. pose proof L as (L1 & L2 & _). rewrite (str_at_is _ _ _ L1), (str_at_is _ _ _ L2). unfold nv_doc.
    destruct (port_str_is _ _ _ H) as [-> ->]. done.
  - intros (d & ns & svc & p & pr & k & Hd & (L1 & L2 & _) & E & Hp & H & ->). exists d. split; [done|]. rewrite E. apply in_map_iff. exists p. rewrite (str_at_is _ _ _ L1), (str_at_is _ _ _ L2). split; [|done].
    unfold nv_doc. by destruct (port_str_is _ _ _ H) as [-> ->].
Qed.
Lemma nv_names ds : history_ok clean [service] ∅ ds -> named_services ds -> one_per_name (flat_map nv_out (of_kind "Service" (after ds))).
Proof.
  intros HH HC. assert (HK : one_per_name (of_kind "Service" (after ds))) by (apply (kind_names [service]); [done|apply NoDup_singleton|by apply named_named]).
  split.
  - apply nodup_flat_map; [by apply names_nodup| |].
    + intros d Hd. destruct (annotated d); [|apply NoDup_nil; done]. destruct (named_in HH HC Hd) as [(((ns & svc & L1 & L2 & _ & L4) & _) & HA & ND) _]. rewrite (str_at_is _ _ _ L1), (str_at_is _ _ _ L2).
      rewrite map_map. revert HA ND. generalize (ports_of d). clear -L4. induction l as [|p l IH]; intros HA ND; [apply NoDup_nil; done|]. cbn [map] in *. apply Forall_cons in HA as [(pr & k & H) HA]. apply NoDup_cons in ND as [Hn ND].
      apply NoDup_cons. split; [|by apply IH]. intros Hin. apply Hn. apply elem_of_list_In, in_map_iff in Hin as (q & E & Hq). pose proof HA as HA'. rewrite List.Forall_forall in HA'. destruct (HA' q Hq) as (pr' & k' & H').
      unfold nv_doc in E. destruct (port_str_is _ _ _ H) as [X1 X2], (port_str_is _ _ _ H') as [Y1 Y2]. rewrite X1, X2, Y1, Y2 in E. rewrite !sv_doc_id in E by (by apply full_text). injection E as E.
      destruct H as (A1 & A2 & A3), H' as (B1 & B2 & B3). apply full_inj in E as (_ & <- & <-); [|done|done]. apply elem_of_list_In, in_map_iff. exists q. split; [|done]. by rewrite A1, A3, B1, B3.
    + intros d d' z z' Hd Hd' Hz Hz' E. assert (forall d z, In d (of_kind "Service" (after ds)) -> In z (nv_out d) -> exists ns svc pr k, word pr /\ located d ns svc /\ doc_id z = Some (ns, full_name svc pr k)) as G.
      { clear -HH HC. intros d z Hd Hz. destruct (annotated d); [|done]. apply in_map_iff in Hz as (p & <- & Hp). destruct (named_in HH HC Hd) as [(((ns & svc & L) & _) & HA & _) _].
        rewrite List.Forall_forall in HA. destruct (HA p Hp) as (pr & k & H). exists ns, svc, pr, k. split; [apply H|].
        split; [done|]. destruct L as (L1 & L2 & _ & L4). rewrite (str_at_is _ _ _ L1), (str_at_is _ _ _ L2). unfold nv_doc. destruct (port_str_is _ _ _ H) as [-> ->]. apply sv_doc_id. by apply full_text. }
      destruct (G d z Hd Hz) as (ns & svc & pr & k & W & L & Ez), (G d' z' Hd' Hz') as (ns' & svc' & pr' & k' & W' & L' & Ez'). rewrite Ez, Ez' in E. injection E as <- E. apply full_inj in E as (<- & _); [|done|done].
      apply (names_inj _ _ _ HK Hd Hd'). by rewrite (located_id _ _ _ L), (located_id _ _ _ L').
  - intros x Hx. apply (nv_out_in ds x HH HC) in Hx as (d & ns & svc & p & pr & k & Hd & L & _ & _ & H & ->). eexists. split; [apply sv_doc_id, full_text, L|].
    destruct HK as [_ HK]. destruct (HK d Hd) as (j & Hj & [P1 P2]). rewrite (located_id _ _ _ L) in Hj. injection Hj as <-. split; [done|]. apply full_slash; [done|apply H].
Qed.
Lemma named_hold sortv p pp o ds : (forall l, Permutation (sortv l) l) -> fmt_ok -> fmt_inj ->
  unmarshal_pipeline named_ports_json = Val p -> declare clean service_view [service] p = Some pp -> order_ok o -> history_ok clean [service] ∅ ds -> named_services ds ->
  exists p' outs, pipe_run clean sortv o 0 pp ds = (p', map Some outs)
    /\ forall ns n m, apply_ops no_objects (concat outs) (ns, n) = Some m <->
         exists d svc port pr k, In d (of_kind "Service" (after ds)) /\ located d ns svc /\ annotation_of d <> JNull /\ In port (ports_of d) /\ a_port_of port pr k
           /\ n = full_name svc pr k /\ m = port_view ns n svc (at_ ["spec"; "type"] d) port.
Proof.
  intros HS F1 F2 HU HD Ho HH HC. rewrite named_stages in HU. injection HU as <-.
  destruct (C51_runs_partial FF EE sortv service_view [service] nv_stages pp o ds (fun k d => named_service d /\ get_kind d = k) yes F1 F2 HS) as (p' & outs & R & HR & HY & HT); try done.
  - apply NoDup_singleton.
  - apply List.Forall_cons; [vm_compute; reflexivity|apply List.Forall_nil].
  - apply nv_clean.
  - eapply each_on; [|exact HH|exact HC]. apply List.Forall_cons; [done|apply List.Forall_nil].
  - exists service. split; [done|]. apply (chain_on _ _ _ _ (chain_weak _ _ _ _ _ nv_chain (fun d H => proj1 H)) nv_clean).
  - intros pre post R -> HY. apply history_app in HH as [HH _]. apply Forall_app in HC as [HC _]. eapply one_per_name_perm; [by apply (nv_yields sortv)|]. by apply nv_names.
  - exists p', outs. split; [done|]. intros ns n m. rewrite HT. apply nv_yields in HY; [|done|done]. split.
    + intros (x & Hx & Hi & ->). apply (Permutation_in _ (Permutation_sym HY)), (nv_out_in ds x HH HC) in Hx as (d & ns' & svc & port & pr & k & Hd & L & A & Hp & H & ->).
      rewrite sv_doc_id in Hi by apply full_text, L. injection Hi as -> <-. exists d, svc, port, pr, k. split_and!; try done.
      * intros E. unfold annotated in A. by rewrite E in A.
      * cbn [fst snd]. apply sv_doc_out; [apply L|apply full_text, L].
    + intros (d & svc & port & pr & k & Hd & L & A & Hp & H & -> & ->). exists (sv_doc ns (full_name svc pr k) svc (at_ ["spec"; "type"] d) port). split_and!.
      * apply (Permutation_in _ HY), (nv_out_in ds _ HH HC). exists d, ns, svc, port, pr, k. split_and!; try done. unfold annotated. by destruct (annotation_of d).
      * apply sv_doc_id, full_text, L.
      * symmetry. apply sv_doc_out; [apply L|apply full_text, L].
Qed.
End named.
