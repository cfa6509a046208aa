(** Properties C28 (view groups), C44 (UIDs) and C49 (Secrets). *)
From Verif Require Import JsonModel ObjModel GroupModel PipelineModel JsonSpec PipelineSpec GroupSpec.
From Verif Require Import GroupProofs.

(** ** C28 *)

(** Different operators have different view groups. *)
Theorem C28_own_group : forall a b, view_group a = view_group b -> a = b.
Proof. exact view_group_inj. Qed.
Print Assumptions C28_own_group.

(** The operator is recovered from any of its view kinds, including those of
    mapped native kinds. So no group is owned by two operators. *)
Theorem C28_operator_partial : forall op x, no_dot op -> owns op (gvk_group x) -> get_operator x = op.
Proof. exact get_operator_owns. Qed.
Print Assumptions C28_operator_partial.
Theorem C28_disjoint_partial : forall op op' g, no_dot op -> no_dot op' -> owns op g -> owns op' g -> op = op'.
Proof.
  intros op op' g H H' O O'. pose proof (get_operator_owns op (GVK g "" "") H O) as E. pose proof (get_operator_owns op' (GVK g "" "") H' O') as E'. congruence.
Qed.
Print Assumptions C28_disjoint_partial.
Theorem C28_mapped : forall op x, owns op (gvk_group (map_into_view op x)).
Proof. exact map_into_owns. Qed.
Print Assumptions C28_mapped.

(** Every group of an operator is recognised. *)
Theorem C28_recognised : forall op g, owns op g -> is_view_group g = true.
Proof.
  intros op g [->|(group & version & ->)]; apply has_suffix_iff.
  - exists (op +:+ "."). by rewrite JsonProofs.app_assoc_s.
  - exists (group +:+ "." +:+ version +:+ "." +:+ op +:+ "."). by rewrite !JsonProofs.app_assoc_s.
Qed.
Print Assumptions C28_recognised.

(** Into views and back. *)
Theorem C28_round_trip_partial : forall op x, no_dot (gvk_group x) -> gvk_group x <> "core"%string -> no_dot (gvk_version x) ->
  map_from_view (map_into_view op x) = Some x.
Proof. exact map_round. Qed.
Print Assumptions C28_round_trip_partial.

(** Refuted for operator names with a dot, which Kubernetes allows: the operator
    is not recovered, and two operators own the same group. *)
Theorem C28_dotted_operator_refuted :
  get_operator (view_gvk "my.op" "View") = "op"%string
  /\ owns "op" (gvk_group (map_into_view "op" (GVK "apps" "v1" "Deployment"))) /\ owns "apps.v1.op" (gvk_group (map_into_view "op" (GVK "apps" "v1" "Deployment"))).
Proof. split; [vm_compute; reflexivity|]. split; [apply map_into_owns|]. left. vm_compute. reflexivity. Qed.
Print Assumptions C28_dotted_operator_refuted.

(** Refuted: groups that no operator owns are taken for view groups, and views
    of them are attributed to the operator "". *)
Theorem C28_recognised_refuted :
  is_view_group "view.dcontroller.io" = true /\ is_view_group "preview.dcontroller.io" = true
  /\ get_operator (GVK "preview.dcontroller.io" "v1alpha1" "X") = ""%string
  /\ forall op, ~ owns op "view.dcontroller.io" /\ ~ owns op "preview.dcontroller.io".
Proof.
  split; [reflexivity|]. split; [reflexivity|]. split; [vm_compute; reflexivity|]. intros op.
  assert (G : forall p, ~ exists q, p +:+ "view.dcontroller.io" = q +:+ ".view.dcontroller.io" /\ ~ exists r, p = r +:+ ".").
  { intros p (q & E & N). apply N. exists q. apply (app_inv_tail "view.dcontroller.io"). rewrite E. by rewrite JsonProofs.app_assoc_s. }
  assert (H : forall p, (~ exists r, p = r +:+ ".") -> ~ owns op (p +:+ "view.dcontroller.io")).
  { intros p N [E|(group & version & E)]; apply (G p).
    - exists op. by split.
    - exists (group +:+ "." +:+ version +:+ "." +:+ op). split; [|done]. rewrite E. by rewrite !JsonProofs.app_assoc_s. }
  split; [apply (H "")|apply (H "pre")]; intros [r E].
  - by destruct r.
  - destruct r as [|? [|? [|? [|]]]]; try done; injection E; done.
Qed.
Print Assumptions C28_recognised_refuted.

(** Refuted for the native groups with dots and for a group named core. *)
Theorem C28_round_trip_refuted :
  map_from_view (map_into_view "op" (GVK "networking.k8s.io" "v1" "Ingress")) = Some (GVK "networking" "k8s" "Ingress")
  /\ map_from_view (map_into_view "op" (GVK "core" "v1" "Pod")) = Some (GVK "" "v1" "Pod")
  /\ map_from_view (view_gvk "op" "V") = Some (GVK "op" "view" "V").
Proof. repeat split; vm_compute; reflexivity. Qed.
Print Assumptions C28_round_trip_refuted.

Example ex_C28 : no_dot "op" /\ get_operator (view_gvk "op" "V") = "op"%string
  /\ get_operator (map_into_view "op" (GVK "networking.k8s.io" "v1" "Ingress")) = "op"%string
  /\ map_from_view (map_into_view "my.op" (GVK "apps" "v1" "Deployment")) = Some (GVK "apps" "v1" "Deployment")
  /\ map_from_view (map_into_view "op" (GVK "" "v1" "Pod")) = Some (GVK "" "v1" "Pod").
Proof. split; [by repeat split|]. repeat split; vm_compute; reflexivity. Qed.

(** ** C44 *)

(** The hash input determines kind, namespace and name. *)
Theorem C44_injective_partial : forall x y ns ns' n n',
  has_slash (gvk_group x) = false -> has_slash (gvk_group y) = false -> has_slash (gvk_version x) = false -> has_slash (gvk_version y) = false ->
  has_slash (gvk_kind x) = false -> has_slash (gvk_kind y) = false -> has_slash ns = false -> has_slash ns' = false ->
  uid_key x ns n = uid_key y ns' n' -> x = y /\ ns = ns' /\ n = n'.
Proof. exact uid_key_inj. Qed.
Print Assumptions C44_injective_partial.
(** Refuted for namespaces or kinds with a slash, which views may have. *)
Theorem C44_injective_refuted : forall op, uid_key (view_gvk op "V") "a" "b/c" = uid_key (view_gvk op "V") "a/b" "c".
Proof. reflexivity. Qed.
Print Assumptions C44_injective_refuted.

(** The UID of a view object depends on kind, namespace and name only. *)
Theorem C44_value : forall hash m x, is_view_kind (get_gvk m) = true -> get_uid m = ""%string -> mget m "metadata" = Some (JMap x) ->
  hash (uid_key (get_gvk m) (get_namespace m) (get_name m)) <> ""%string ->
  get_uid (with_uid hash m) = hash (uid_key (get_gvk m) (get_namespace m) (get_name m)).
Proof. exact uid_value. Qed.
Print Assumptions C44_value.
(** Native objects and objects with a UID are not changed. *)
Theorem C44_kept : forall hash m, is_view_kind (get_gvk m) = false \/ get_uid m <> ""%string -> with_uid hash m = m.
Proof. intros hash m [H|H]; [by apply uid_native|by apply uid_kept]. Qed.
Print Assumptions C44_kept.
(** Removing the UID restores the object. *)
Theorem C44_restored : forall hash m x, owf m -> is_view_kind (get_gvk m) = true -> mget m "metadata" = Some (JMap x) -> mget x "uid" = None ->
  hash (uid_key (get_gvk m) (get_namespace m) (get_name m)) <> ""%string -> remove_uid (with_uid hash m) = m.
Proof. exact uid_restore. Qed.
Print Assumptions C44_restored.
(** Not when the object came with a UID of its own. *)
Definition view_obj (uid : jobj) : jobj :=
  [("apiVersion"%string, JStr "op.view.dcontroller.io/v1alpha1"); ("kind"%string, JStr "V"); ("metadata"%string, JMap ([("name"%string, JStr "a"); ("namespace"%string, JStr "b")] ++ uid))].
Theorem C44_own_uid_lost : forall hash, remove_uid (with_uid hash (view_obj [("uid"%string, JStr "1")])) = view_obj [].
Proof. reflexivity. Qed.
Print Assumptions C44_own_uid_lost.
Example ex_C44 : owf (view_obj []) /\ is_view_kind (get_gvk (view_obj [])) = true /\ get_uid (view_obj []) = ""%string
  /\ uid_key (get_gvk (view_obj [])) (get_namespace (view_obj [])) (get_name (view_obj [])) = "op.view.dcontroller.io/v1alpha1/V/b/a"%string
  /\ get_uid (with_uid (fun s => s) (view_obj [])) = "op.view.dcontroller.io/v1alpha1/V/b/a"%string.
Proof.
  split; [|repeat split; vm_compute; reflexivity]. unfold view_obj. cbn [app].
  repeat first [constructor | (apply jwf_map; [repeat (apply SSorted_cons || apply SSorted_nil || constructor)|]) ]; reflexivity.
Qed.

(** ** C49 *)

(** A base64 value arrives as the bytes it encodes, whatever they are. *)
Theorem C49_decoded : forall m d k s, get_kind m = "Secret"%string -> mget m "data" = Some (JMap d) -> mget d k = Some (JStr (b64_encode s)) ->
  exists d', mget (decode_secret m) "data" = Some (JMap d') /\ mget d' k = Some (JStr s).
Proof.
  intros m d k s K D E. destruct (decode_get m d k K D) as (d' & E1 & E2). exists d'. split; [done|]. rewrite E2, E. cbn. by rewrite b64_round.
Qed.
Print Assumptions C49_decoded.
(** Other values stay as they are: texts with a character that base64 does not have,
    and values that are not texts. *)
Theorem C49_kept : forall m d k v, get_kind m = "Secret"%string -> mget m "data" = Some (JMap d) -> mget d k = Some v ->
  match v with JStr s => exists c, c ∈ list_ascii_of_string s /\ ~ base64_char c | _ => True end ->
  exists d', mget (decode_secret m) "data" = Some (JMap d') /\ mget d' k = Some v.
Proof.
  intros m d k v K D E H. destruct (decode_get m d k K D) as (d' & E1 & E2). exists d'. split; [done|]. rewrite E2, E. cbn. f_equal. destruct v; try done. cbn [decode_value]. by rewrite b64_refused.
Qed.
Print Assumptions C49_kept.
(** Other objects, and the other fields of a Secret, are unchanged. *)
Theorem C49_others : forall m, get_kind m <> "Secret"%string -> decode_secret m = m.
Proof. exact decode_other. Qed.
Print Assumptions C49_others.
Theorem C49_fields : forall m k, k <> "data"%string -> mget (decode_secret m) k = mget m k.
Proof. exact decode_keeps. Qed.
Print Assumptions C49_fields.

Definition secret (s : string) : jobj :=
  [("apiVersion"%string, JStr "v1"); ("data"%string, JMap [("password"%string, JStr s)]); ("kind"%string, JStr "Secret"); ("metadata"%string, JMap [("name"%string, JStr "s")])].
Definition password (m : jobj) : option json := nested_get m ["data"; "password"]%string.

(** Refuted for retried events: the second attempt decodes the value again. The
    password "password" becomes six other bytes. *)
Theorem C49_retry_refuted :
  let m := secret (b64_encode "password") in
  password (attempt_object 0 m) = Some (JStr "password") /\ password (attempt_object 1 m) <> Some (JStr "password")
  /\ (String.length <$> b64_decode "password") = Some 6%nat.
Proof. cbv zeta. split; [vm_compute; reflexivity|]. split; [vm_compute; congruence|vm_compute; reflexivity]. Qed.
Print Assumptions C49_retry_refuted.

(** Refuted for binary data: two Secrets with different bytes have the same
    identity, so the pipeline does not see the change. *)
Theorem C49_binary_refuted {FF : FloatFmt} : exists a b, a <> b
  /\ password (decode_secret (secret (b64_encode a))) = Some (JStr a) /\ password (decode_secret (secret (b64_encode b))) = Some (JStr b)
  /\ enc (JMap (decode_secret (secret (b64_encode a)))) = enc (JMap (decode_secret (secret (b64_encode b)))).
Proof. exists (String (ascii_of_N 128) ""), (String (ascii_of_N 129) ""). split; [done|]. repeat split; vm_compute; reflexivity. Qed.
Print Assumptions C49_binary_refuted.

Example ex_C49 : b64_encode "hello" = "aGVsbG8="%string /\ b64_encode "hi!" = "aGkh"%string /\ b64_encode "a" = "YQ=="%string
  /\ password (decode_secret (secret "aGVsbG8=")) = Some (JStr "hello")
  /\ password (decode_secret (secret "not base64")) = Some (JStr "not base64").
Proof. repeat split; vm_compute; reflexivity. Qed.
