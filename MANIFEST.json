{
 "claims": [
  {
   "property": "C01",
   "status": "proved",
   "theorems": [
    "C01_add_is_sum",
    "C01_sub_is_difference",
    "C01_add_commutative",
    "C01_add_associative",
    "C01_empty_neutral",
    "C01_sub_self_is_zero"
   ],
   "note": "Z-sets reachable by any sequence of public operations; unbounded multiplicities."
  },
  {
   "property": "C02",
   "status": "proved",
   "theorems": [
    "C02_observers_agree",
    "C02_representation"
   ],
   "note": ""
  },
  {
   "property": "C03",
   "status": "proved",
   "theorems": [
    "C03_build_order_irrelevant",
    "C03_iteration_order_irrelevant",
    "C03_select_project_unwind_order",
    "C03_join_order",
    "C03_incremental_join_order"
   ],
   "note": "Evaluators are assumed to respect document identity (ev_ok, jev_ok)."
  },
  {
   "property": "C04",
   "status": "proved",
   "theorems": [
    "C04_distinct",
    "C04_unique",
    "C04_distinct_idempotent",
    "C04_unique_idempotent",
    "C04_distinct_same_documents"
   ],
   "note": ""
  },
  {
   "property": "C05",
   "status": "proved",
   "theorems": [
    "C05_linear_sum",
    "C05_linear_difference",
    "C05_empty_to_empty",
    "C05_deltas_accumulate",
    "C05_pointwise"
   ],
   "note": "Evaluators are assumed to respect document identity."
  },
  {
   "property": "C06",
   "status": "proved",
   "theorems": [
    "C06_integrate_differentiate",
    "C06_differentiate_integrate",
    "C06_delay_shifts"
   ],
   "note": ""
  },
  {
   "property": "C07",
   "status": "proved",
   "theorems": [
    "C07_incremental_join"
   ],
   "note": "All arities >= 1. Success of every incremental step implies success of the snapshot join."
  },
  {
   "property": "C08",
   "status": "proved",
   "theorems": [
    "C08_incremental_binary_join",
    "C08_binary_agrees_with_nary"
   ],
   "note": ""
  },
  {
   "property": "C09",
   "status": "proved",
   "theorems": [
    "C09_lifted_nonlinear"
   ],
   "note": "For gather the operator may depend on the iteration order, so the result is stated for some order."
  },
  {
   "property": "C10",
   "status": "partial",
   "theorems": [
    "C10_groups",
    "C10_order_partial",
    "C10_order_refuted",
    "C10_negative_refuted",
    "C10_sort_homogeneous",
    "C10_sort_small",
    "C10_sort_mixed_refuted",
    "C10_gather_mixed_refuted"
   ],
   "note": "Grouping and multiplicities proved; order independence is false for the aggregator of package pipeline (refuted) and proved under uniform groups. The value order is a total order on values of one type, so any sorting algorithm gives one result there; on mixed types it is not transitive and the result depends on the input order (refuted)."
  },
  {
   "property": "C11",
   "status": "partial",
   "theorems": [
    "C11_integrate_differentiate",
    "C11_distinct",
    "C11_fusion_sound",
    "C11_fusion_complete_partial",
    "C11_runs",
    "C11_fusion_refuted"
   ],
   "note": "All rules preserve every successful output; fusion can introduce failures (refuted), complete when user code does not fail."
  },
  {
   "property": "C12",
   "status": "proved",
   "theorems": [
    "C12_optimize_user_pipelines",
    "C12_construction",
    "C12_library_chain_refuted"
   ],
   "note": "Proved for all user pipelines; the refuted theorem concerns chains built with the library interface."
  },
  {
   "property": "C13",
   "status": "proved",
   "theorems": [
    "C13_incremental",
    "C13_scratch_adequate",
    "C13_deterministic",
    "C13_deterministic_gather",
    "C13_deterministic_stages",
    "C13_total"
   ],
   "note": ""
  },
  {
   "property": "C14",
   "status": "partial",
   "theorems": [
    "C14_stateless_partial",
    "C14_join_partial",
    "C14_gather_refuted",
    "C14_join_chain_refuted",
    "C14_caches",
    "C14_sync_partial",
    "C14_pipeline_refuted"
   ],
   "note": "False in general; proved for pipelines without state and for joins whose later stages cannot fail. At the level of whole pipelines the source caches mirror the sources whatever fails and a Sync repairs the target, but retries do not: the retry of a failed update succeeds without effect, and an object deleted while its content cannot be evaluated leaves its target object for good (C14_pipeline_refuted)."
  },
  {
   "property": "C15",
   "status": "partial",
   "theorems": [
    "C15_reset_partial",
    "C15_join_refuted"
   ],
   "note": "False for n-ary joins, proved otherwise."
  },
  {
   "property": "C16",
   "status": "partial",
   "theorems": [
    "C16_available_partial",
    "C16_meaning_partial",
    "C16_total_partial",
    "C16_gather_unwind_refuted"
   ],
   "note": "Proved for selections and projections with or without join; refuted for every pipeline with gather or unwind."
  },
  {
   "property": "C17",
   "status": "partial",
   "theorems": [
    "C17_mirror_partial",
    "C17_noop",
    "C17_unknown",
    "C17_mirror_refuted"
   ],
   "note": "Proved for every history of events as in event_ok; deletions with stale content and repeated additions break it (C17_mirror_refuted)."
  },
  {
   "property": "C18",
   "status": "partial",
   "theorems": [
    "C18_reconcile_partial",
    "C18_reconcile_refuted"
   ],
   "note": "Proved for all delta lists, caches and iteration orders, for names without '/', which Kubernetes names are; C18_reconcile_refuted shows two names that share a cache key otherwise."
  },
  {
   "property": "C19",
   "status": "partial",
   "theorems": [
    "C19_target_partial",
    "C19_total_partial",
    "C19_functional"
   ],
   "note": "Proved for all pipelines, histories, joins and iteration orders, as long as the results hold at most one document per name (shown unconditionally for single-source name-keeping pipelines), source Kinds differ and deletions carry the last content."
  },
  {
   "property": "C20",
   "status": "partial",
   "theorems": [
    "C20_survives_refuted",
    "C19_target_partial"
   ],
   "note": "False of the code when results have multiplicity above one (C20_survives_refuted); holds by C19 otherwise."
  },
  {
   "property": "C21",
   "status": "partial",
   "theorems": [
    "C21_sync_partial",
    "C21_idempotent_partial",
    "C21_idempotent_refuted"
   ],
   "note": "Sync repairs any damage; idempotent when results are objects of the target kind; refuted otherwise. Gather and unwind cannot be converted to snapshots (C16)."
  },
  {
   "property": "C22",
   "status": "partial",
   "theorems": [
    "C22_silent",
    "C22_retry_refuted",
    "C22_added_partial",
    "C22_added_refuted"
   ],
   "note": "False of the code: C22_retry_refuted proves for every pipeline and history that a failed write of an update is never repeated; retries of updates are harmless (C22_silent). Retried additions converge, whatever operations the failing attempts did carry out, when the pipeline reads one source and has neither joins nor gathers (C22_added_partial); otherwise the addition is counted twice: joins keep a ghost of the object and gathers list it twice (C22_added_refuted)."
  },
  {
   "property": "C23",
   "status": "partial",
   "theorems": [
    "C23_interleaving_partial"
   ],
   "note": "Proved under the hypotheses of C19 and for stages whose result does not depend on the iteration order."
  },
  {
   "property": "C24",
   "status": "partial",
   "theorems": [
    "C24_distinct_partial",
    "C24_same_kind_refuted"
   ],
   "note": "Proved for distinct Kinds; C24_same_kind_refuted proves that a join over two sources with the same Kind fails on every event."
  },
  {
   "property": "C25",
   "status": "partial",
   "theorems": [
    "C25_identity_exists",
    "C25_identity_partial",
    "C25_no_floats",
    "C25_int_float_refuted",
    "C25_utf8_refuted"
   ],
   "note": "Two well-formed documents with valid UTF-8 strings have the same identity iff they agree as JSON values up to the decimal text of numbers; exactly structural equality without floats. The int 1 and the float 1.0 share an identity, as do strings differing only in invalid UTF-8 bytes (refuted). The float formatter is a parameter constrained to be injective and to print numeric characters."
  },
  {
   "property": "C26",
   "status": "partial",
   "theorems": [
    "C26_total",
    "C26_idempotent",
    "C26_leaves",
    "C26_local",
    "C26_empty",
    "C26_nulls_partial",
    "C26_nulls_refuted"
   ],
   "note": "Everything is proved except the deletion of null entries below maps that the object lacks: there the null is written into the object (refuted)."
  },
  {
   "property": "C27",
   "status": "partial",
   "theorems": [
    "C27_null",
    "C27_lists",
    "C27_leaf",
    "C27_maps",
    "C27_defined",
    "C27_associative_partial",
    "C27_associative_refuted"
   ],
   "note": "Associativity holds for values of the same kind at common positions and fails otherwise (refuted); a null on the right is an error."
  },
  {
   "property": "C28",
   "status": "partial",
   "theorems": [
    "C28_own_group",
    "C28_operator_partial",
    "C28_disjoint_partial",
    "C28_mapped",
    "C28_recognised",
    "C28_round_trip_partial",
    "C28_dotted_operator_refuted",
    "C28_recognised_refuted",
    "C28_round_trip_refuted"
   ],
   "note": "Holds for operator names, native groups and versions without dots; refuted for dotted names, for groups that merely end in view.dcontroller.io and for native groups such as networking.k8s.io."
  },
  {
   "property": "C29",
   "status": "partial",
   "theorems": [
    "C29_map_partial",
    "C29_stored_content",
    "C29_create_again",
    "C29_native_view_refuted",
    "C29_slash_refuted",
    "C29_rename_refuted",
    "C29_negative_zero_refuted"
   ],
   "note": "Results, Get and List of the cache client equal those of a plain map for all histories, for view kinds declared by an operator, names without slash, no negative zero and patches that keep the identity. Each restriction has a refuting witness: updates of views of native kinds are NotFound, slash names share a place, a renaming patch leaves two objects, an update from 0 to -0 is lost."
  },
  {
   "property": "C30",
   "status": "partial",
   "theorems": [
    "C30_replay_partial",
    "C30_order_partial",
    "C30_removed"
   ],
   "note": "For calls that do not overlap, all histories and registration points: replayed events equal the cache, initial objects first, then events in write order, nothing after removal. Same restrictions on objects as C29; overlapping calls are C31."
  },
  {
   "property": "C31",
   "status": "partial",
   "theorems": [
    "C31_never_misses_partial",
    "C31_orderly_partial",
    "C31_duplicate_add_refuted",
    "C31_add_after_delete_refuted",
    "C31_stale_refuted",
    "C31_ghost_refuted"
   ],
   "note": "Never missing an object holds for every interleaving. No duplicate adds and no adds after deletion are refuted, and so is convergence of the last event. Convergence is proved when calls on the same object do not overlap and begin after the registration."
  },
  {
   "property": "C32",
   "status": "partial",
   "theorems": [
    "C32_watch_partial",
    "C32_names_partial",
    "C32_channel",
    "C32_leaving_refuted",
    "C32_leaving_deleted_refuted",
    "C32_slow_reader_refuted",
    "C32_fields",
    "C32_selects",
    "C32_burst"
   ],
   "note": "Proved for selections that no write changes, in particular for all selections by name and namespace, and for readers that keep up. Refuted for objects that leave the selection and, for every channel size, for slow readers."
  },
  {
   "property": "C33",
   "status": "partial",
   "theorems": [
    "C33_upsert_partial",
    "C33_again_partial",
    "C33_delete",
    "C33_run",
    "C33_status_lost_refuted",
    "C33_status_stays_refuted",
    "C33_metadata_refuted",
    "C33_labels_refuted",
    "C33_old_labels_refuted",
    "C33_other_views_refuted",
    "C33_late_cache_partial",
    "C33_late_cache_strict",
    "C33_conflict",
    "C33_gone_refuted",
    "C33_undisturbed_partial",
    "C33_overtaken",
    "C33_created_meanwhile_partial",
    "C33_deleted_meanwhile_refuted",
    "C33_view_race_refuted"
   ],
   "note": "For operator-declared views and native kinds, an up-to-date cache and no interference: an upsert stores the delta's fields, labels and annotations on top, other metadata kept, nothing else changed; a second write changes nothing; deletion; after any sequence of deltas each object follows its last delta. False in general: status of a new native object is lost, status of native objects is never removed, other delta metadata are dropped, one non-string label loses all labels, old labels stay, undeclared view kinds are silently not updated. A cache of native objects that lags behind is covered for a single write: a missing object, an older version, and (refuted) an object that is gone. Interference between the read and the write of a native object is covered too: an unchanged object, a changed one (conflict), a created one, and (refuted) a deleted one; for views what was written in between is lost (refuted)."
  },
  {
   "property": "C34",
   "status": "partial",
   "theorems": [
    "C34_patch_partial",
    "C34_withdraw_partial",
    "C34_round_trip_partial",
    "C34_missing",
    "C34_empty_maps_refuted",
    "C34_lists_refuted",
    "C34_replaced_refuted",
    "C34_stale_refuted",
    "C34_race_refuted"
   ],
   "note": "With a current snapshot: the delta's scalar leaves are present after an upsert, everything it does not mention is unchanged, a following deletion removes the delta's map entries and leaves what the delta did not mention as it was; missing objects. False in general: empty maps stay, list elements become null, replaced values do not come back, a stale snapshot undoes concurrent changes. So does a write that comes between the read and the write of the patch."
  },
  {
   "property": "C35",
   "status": "proved",
   "theorems": [
    "C35_decision",
    "C35_any_user",
    "C35_monotone",
    "C35_confined",
    "C35_names_refuted",
    "C35_subresource_refuted"
   ],
   "note": "Decision procedure equals the declarative reading for all users, rules and requests. The refuted theorems record where the reading differs from Kubernetes: names do not restrict list/watch/create/deletecollection or requests without a name, and subresources are ignored."
  },
  {
   "property": "C36",
   "status": "proved",
   "theorems": [
    "C36_single_star",
    "C36_no_star",
    "C36_any",
    "C36_glob",
    "C36_glob_refuted"
   ],
   "note": "Exactly the values with the given beginning and end; refuted for the stricter glob reading when they overlap."
  },
  {
   "property": "C37",
   "status": "partial",
   "theorems": [
    "C37_removal_partial",
    "C37_default_refuted"
   ],
   "note": "False of the code for an empty rule list, which means full access; monotone as long as a rule is left."
  },
  {
   "property": "C38",
   "status": "proved",
   "theorems": [
    "C38_formula",
    "C38_rejected",
    "C38_round_trip",
    "C38_negation_drops_creations",
    "C38_round_trip_refuted"
   ],
   "note": "A predicate built from a specification decides every event as its formula says; Or/And/Not, unknown names rejected. The JSON round trip holds for well-formed specifications; refuted outside."
  },
  {
   "property": "C39",
   "status": "partial",
   "theorems": [
    "C39_last_ten",
    "C39_bounded",
    "C39_trim",
    "C39_ready",
    "C39_critical_refuted",
    "C39_utf8_refuted",
    "C39_race_refuted",
    "C39_top"
   ],
   "note": "Proved for every sequence of pushes and pops in one goroutine. The reporter has no lock: two concurrent pushes can lose a message (C39_race_refuted); trimming cuts UTF-8 sequences (C39_utf8_refuted); the critical flag outlives the critical message (C39_critical_refuted)."
  },
  {
   "property": "C40",
   "status": "partial",
   "theorems": [
    "C40_served_partial",
    "C40_kind_partial",
    "C40_current",
    "C40_discovery",
    "C40_unregister_partial",
    "C40_other_groups",
    "C40_no_interruption",
    "C40_dropped_refuted",
    "C40_case_refuted",
    "C40_list_kind_refuted",
    "C40_failure_refuted",
    "C40_version_refuted",
    "C40_versions"
   ],
   "note": "Proved for all histories of registrations and unregistrations that never re-register a group without one of its current kinds, never name a kind the API server refuses and never hit a failing field manager. The excluded cases are refuted: a kind dropped by a re-registration stays served for ever, kinds equal up to case share a resource, a kind X beside XList panics, a failed registration leaves storages behind, and other versions are listed but not served."
  },
  {
   "property": "C41",
   "status": "partial",
   "theorems": [
    "C41_round_trip_partial",
    "C41_decoded_partial",
    "C41_names",
    "C41_copy_partial",
    "C41_any_refuted",
    "C41_copy_refuted",
    "C41_accepts"
   ],
   "note": "Pipelines of portable expressions survive; the fields of copied stages are independent, arguments behind pointers are shared. C41_accepts: exactly which declarations of pipelines are accepted, and as what."
  },
  {
   "property": "C42",
   "status": "partial",
   "theorems": [
    "C42_round_trip_partial",
    "C42_decoded_partial",
    "C42_deep_copy_partial",
    "C42_deep_copy_total",
    "C42_any_refuted",
    "C42_float_refuted",
    "C42_empty_string_refuted",
    "C42_list_refuted",
    "C42_panic_refuted"
   ],
   "note": "Portable expressions survive; @any, integral floats, the empty string and @list/@dict around an expression do not."
  },
  {
   "property": "C43",
   "status": "partial",
   "theorems": [
    "C43_and",
    "C43_or",
    "C43_not",
    "C43_de_morgan",
    "C43_list",
    "C43_eq_partial",
    "C43_in_partial",
    "C43_exists",
    "C43_len",
    "C43_any",
    "C43_all",
    "C43_filter",
    "C43_map",
    "C43_sum",
    "C43_minmax",
    "C43_compare",
    "C43_arith",
    "C43_floats",
    "C43_hash",
    "C43_subject",
    "C43_concat_partial",
    "C43_range",
    "C43_cond",
    "C43_switch",
    "C43_defined_or",
    "C43_dict_partial",
    "C43_deterministic_partial",
    "C43_no_panic_partial",
    "C43_eq_refuted",
    "C43_eq_null_refuted",
    "C43_none_refuted",
    "C43_null_subject_refuted",
    "C43_concat_refuted",
    "C43_dict_refuted",
    "C43_now_refuted",
    "C43_deterministic_refuted",
    "C43_panic_refuted",
    "C43_int_string",
    "C43_arith_string",
    "C43_round",
    "C43_div",
    "C43_switch_none",
    "C43_noop",
    "C43_plain_key",
    "C43_float_minmax"
   ],
   "note": "Laws of the operators on evaluated arguments. Determinism holds for maps with plain distinct keys. @none is never true, @eq and @in unpack a list given first, floats are formatted wrongly by @concat, path keys make maps order-dependent: refuted."
  },
  {
   "property": "C44",
   "status": "partial",
   "theorems": [
    "C44_injective_partial",
    "C44_injective_refuted",
    "C44_value",
    "C44_kept",
    "C44_restored",
    "C44_own_uid_lost"
   ],
   "note": "Hash inputs are injective when group, version, kind and namespace have no slash; refuted otherwise. SHA-256 itself is a parameter."
  },
  {
   "property": "C45",
   "status": "partial",
   "theorems": [
    "C45_running_partial",
    "C45_kinds_partial",
    "C45_served_partial",
    "C45_outcomes_partial",
    "C45_race_started",
    "C45_race_stopped",
    "C45_twice_refuted",
    "C45_before_start_refuted",
    "C45_update_failure_refuted",
    "C45_set_api_refuted",
    "C45_downtime_refuted",
    "C45_race_refuted",
    "C45_healthy_partial"
   ],
   "note": "Proved for all histories of reconciler calls on a started controller with an API server, including failed reads and failed creations, unless a view kind is one the API server refuses. Refuted outside it: adding an operator twice through AddOperatorFromSpec leaks the first, deleting one before Start calls a nil function, a failed update has already stopped the operator, operators added before SetAPIServer are never registered, an update takes the kept kinds away for a while, and Start racing with AddOperator starts an operator twice so that nothing stops it."
  },
  {
   "property": "C46",
   "status": "partial",
   "theorems": [
    "C46_selection_partial",
    "C46_source_partial",
    "C46_delivered",
    "C46_namespace",
    "C46_selection_refuted"
   ],
   "note": "Holds when no object changes whether it matches; refuted otherwise: an object that stops matching stays in the pipeline, because the predicate looks at the new object only."
  },
  {
   "property": "C47",
   "status": "partial",
   "theorems": [
    "C47_stale_retry_refuted",
    "C47_kept_partial",
    "C47_in_order_partial"
   ],
   "note": "Refuted: a retried update overrides a newer one, for every pipeline (C47_stale_retry_refuted); the queue does produce that order (ex_C47). What holds: no request is lost or skipped, each waits at most one round, and without failures requests are processed in order (C47_kept_partial, C47_in_order_partial)."
  },
  {
   "property": "C48",
   "status": "partial",
   "theorems": [
    "C48_one_worker",
    "C48_workers_partial",
    "C48_order_refuted"
   ],
   "note": "Holds for one source and for workers that never write the same object at the same time; refuted for two sources."
  },
  {
   "property": "C49",
   "status": "partial",
   "theorems": [
    "C49_decoded",
    "C49_others",
    "C49_fields",
    "C49_retry_refuted",
    "C49_binary_refuted",
    "C49_kept"
   ],
   "note": "Decoding is right on the first attempt for every byte string; a retry decodes again (refuted), and binary values that are not UTF-8 collide in the pipeline (refuted)."
  },
  {
   "property": "C50",
   "status": "partial",
   "theorems": [
    "C50_sub_resource_partial",
    "C50_update_refuted"
   ],
   "note": "Proved after all histories for view kinds declared by an operator, with the restrictions of C29. A plain Update replaces the status too, unlike in Kubernetes."
  },
  {
   "property": "C51",
   "status": "partial",
   "theorems": [
    "C51_meaning_partial",
    "C51_names",
    "C51_projection",
    "C51_tidy",
    "C51_one_source_partial",
    "C51_runs_partial",
    "C51_unwind_refuted",
    "C51_quiet"
   ],
   "note": "Every declaration and every history whose events are all processed; C51_runs_partial: all events are processed if the expressions of each stage succeed on the objects that reach it. Missing: declarations whose stages yield two objects with the same name or documents that are not clean (C51_tidy and C51_names give tests for both), and what the target holds after a stage has failed. C51_unwind_refuted: @unwind of an object without a name is no error. C51_quiet: an event that does not change what the pipeline yields sends nothing to the target."
  },
  {
   "property": "C52",
   "status": "partial",
   "theorems": [
    "C52_operator",
    "C52_meaning",
    "C52_refused",
    "C52_opposites",
    "C52_order",
    "C52_narrows",
    "C52_local",
    "C52_everything",
    "C52_text",
    "C52_ignored_refuted",
    "C52_missing"
   ],
   "note": "Proved for selectors whose matchLabels, if given, is a map and whose matchExpressions, if given, is a list of maps; C52_ignored_refuted shows that other shapes are silently ignored. The validity of keys and values is a parameter; labels.Requirement is recalled."
  },
  {
   "property": "C53",
   "status": "partial",
   "theorems": [
    "C53_requests_partial",
    "C53_placed",
    "C53_isolation_partial",
    "C53_failed",
    "C53_read_back_partial",
    "C53_create_exists_refuted",
    "C53_stale_update_refuted",
    "C53_create_answer_refuted",
    "C53_options_refuted",
    "C53_generate_name_refuted",
    "C53_collection_refuted"
   ],
   "note": "Requests one after the other, for names without slashes, kinds declared by an operator and objects without negative zeros. The refuted parts: POST of an existing name overwrites it, stale PUTs are accepted, the answer to POST lacks the UID, dry run and delete preconditions are ignored, generateName gives the empty name, deleting a collection returns objects that were kept. The handlers of k8s.io/apiserver are not modelled."
  },
  {
   "property": "C54",
   "status": "partial",
   "theorems": [
    "C54_rows",
    "C54_conditions",
    "C54_conditions_unique",
    "C54_conditions_total",
    "C54_no_conditions",
    "C54_labels_partial",
    "C54_annotations",
    "C54_labels_refuted"
   ],
   "note": "Everything but determinism of the Labels cell, which is refuted: labels come in the iteration order of a Go map."
  },
  {
   "property": "C55",
   "status": "partial",
   "theorems": [
    "C55_decision",
    "C55_writes_partial",
    "C55_reads_partial",
    "C55_blind_partial",
    "C55_url_partial",
    "C55_granted_partial",
    "C55_patch_refuted",
    "C55_url_refuted"
   ],
   "note": "The whole way of a request from the header to the objects, after any history. Partial: patches are taken to leave an object in the namespace of the URL (refuted without), objects sent are well formed; kinds whose names mean something in URLs are excluded (refuted). The machinery of k8s.io/apiserver is modelled from memory."
  },
  {
   "property": "C56",
   "status": "partial",
   "theorems": [
    "C56_accepts",
    "C56_lifetime_partial",
    "C56_expired",
    "C56_lifetime_refuted",
    "C56_config_partial",
    "C56_lists",
    "C56_names",
    "C56_shown",
    "C56_restrictions_refuted",
    "C56_shown_refuted",
    "C56_key_file_refuted"
   ],
   "note": "The server accepts exactly the tokens it should and gives exactly their rights; tokens made by dctl carry what their flags ask for. Partial: times are cut to seconds, so a token may end up to a second early (refuted without the second); blank lists lift restrictions, get-config shows tokens with other signing methods, and the private key is written readable to all (refuted). golang-jwt is specified by laws."
  },
  {
   "property": "C57",
   "status": "partial",
   "theorems": [
    "C57_shared_partial",
    "C57_as_alone",
    "C57_delivered_partial",
    "C57_order_partial",
    "C57_storage_partial",
    "C57_isolated_partial",
    "C57_silent",
    "C57_stopped_refuted",
    "C57_overlap_partial",
    "C57_stop_overlap_refuted"
   ],
   "note": "Proved for calls that do not overlap, for objects as in C29 (well-formed, plain names, operator kinds). Partial: subscriptions through the cache of a stopped operator are dead (refuted); when an operator stops while an event is being delivered, another operator may get it twice or not at all (refuted); registrations alone do no harm."
  },
  {
   "property": "C58",
   "status": "partial",
   "theorems": [
    "C58_registered",
    "C58_resources",
    "C58_all_resources",
    "C58_groups_partial",
    "C58_groups_refuted",
    "C58_kind_of_resource_partial",
    "C58_kind_of_resource_refuted",
    "C58_list_kinds_partial",
    "C58_list_kinds_refuted",
    "C58_composite",
    "C58_mapper_refuted",
    "C58_mapper_native",
    "C58_view_mapper_partial"
   ],
   "note": "Partial: a group lists its version once for each of its kinds (refuted); kinds that differ in case only share a resource, whose kind then depends on the map order (refuted); kinds ending in ListList (refuted); the REST mapper refuses every view group (refuted for all inputs)."
  },
  {
   "property": "C59",
   "status": "partial",
   "theorems": [
    "C59_apart",
    "C59_read_partial",
    "C59_headless_partial",
    "C59_headless_refuted",
    "C59_subresource_refuted"
   ],
   "note": "Partial: without Kubernetes Status() panics for views too (refuted); Status().Create is routed by the kind of the sub-resource, not of the view (refuted). Reads are compared with a plain map for writes as in C29."
  },
  {
   "property": "C60",
   "status": "partial",
   "theorems": [
    "C60_oneshot_partial",
    "C60_oneshot_others_refuted",
    "C60_oneshot_twice_refuted",
    "C60_ticks",
    "C60_failures",
    "C60_no_more",
    "C60_one_at_a_time",
    "C60_period_partial",
    "C60_period_refuted",
    "C60_queue_serves",
    "C60_queue_bounded",
    "C60_queue_exclusive",
    "C60_queue_order",
    "C60_declared"
   ],
   "note": "One-shot sources of view kinds trigger once if nobody else writes the kind and no other one-shot source of the kind is prepared later; both conditions are needed. Periods that cannot be parsed are silently replaced."
  },
  {
   "property": "C61",
   "status": "partial",
   "theorems": [
    "C61_settled_partial",
    "C61_exact_partial",
    "C61_tidy"
   ],
   "note": "For every run without failures of any set of controllers with one worker each, watched sources and Updater targets. Missing: failures, several workers, predicates, Patcher targets, one-shot and periodic sources. Results with two documents of one name are excluded (C20); C61_tidy says when they cannot occur."
  },
  {
   "property": "C62",
   "status": "partial",
   "theorems": [
    "C62_settles_partial"
   ],
   "note": "For acyclic sets of controllers whose stages do not fail and whose results have unique names; the scope is that of C61."
  },
  {
   "property": "C63",
   "status": "partial",
   "theorems": [
    "C63_unique_partial",
    "C63_labels_refuted"
   ],
   "note": "Proved when the written objects carry no metadata but names and the stages do not depend on map order. C63_labels_refuted: with labels the history matters, since the writer keeps old labels."
  },
  {
   "property": "C64",
   "status": "partial",
   "theorems": [
    "C64_restart_partial",
    "C64_settles_partial",
    "C64_orphans_refuted"
   ],
   "note": "For every crash point and every state of the cluster at the restart: all results are there, views have nothing else, foreign kinds are untouched, and the controllers come to rest. Missing: C64_orphans_refuted shows that native objects whose sources vanished while the process was down stay for ever, even after a Sync; the scope is otherwise that of C61, with no failing writes."
  },
  {
   "property": "C65",
   "status": "partial",
   "theorems": [
    "C65_operator_partial",
    "C65_settles_partial",
    "C65_views"
   ],
   "note": "From the specification to the targets: for every operator specification, history, schedule and crash, each controller that can be made has in its target what its stages yield for the current source objects; views have nothing else; and the operator comes to rest if its stages fail for no document and there is no circle. Missing: stages that yield two objects of one name, failing writes, native objects whose sources vanished while the process was down (C64_orphans_refuted), @gather in the termination theorem, sources other than watches, targets of type Patcher."
  },
  {
   "property": "C66",
   "status": "partial",
   "theorems": [
    "C66_current_partial",
    "C66_consistent_partial",
    "C66_answered",
    "C66_stale_refuted",
    "C66_dots_refuted",
    "C66_metadata_refuted"
   ],
   "note": "All interleavings of registrations and requests: every answer describes exactly the kinds of some earlier moment, and those of the present one if no registration falls into a generation; every request is answered. Missing: C66_stale_refuted (a registration during a generation leaves a stale cache), C66_dots_refuted (kinds with dots), C66_metadata_refuted (some definition depends on one that is not there)."
  },
  {
   "property": "C67",
   "status": "partial",
   "theorems": [
    "C67_sound",
    "C67_complete_partial",
    "C67_distinct",
    "C67_nodes",
    "C67_flow_refuted",
    "C67_once_refuted",
    "C67_text_refuted"
   ],
   "note": "All operators: each arrow is a declared flow if the controllers' names differ; each declared flow has an arrow if each view that is read has exactly one writer in the operator and is named in the same way; nodes and labels. Missing: C67_flow_refuted (views of other operators, several writers, full groups), C67_once_refuted (an arrow drawn twice), C67_text_refuted (ambiguous texts)."
  },
  {
   "property": "C68",
   "status": "partial",
   "theorems": [
    "C68_repair_partial",
    "C68_unstamped_partial",
    "C68_projected",
    "C68_blind",
    "C68_stuck_refuted",
    "C68_orphan_refuted"
   ],
   "note": "Whatever the target holds, a Sync makes each object what the result on the current sources says unless the operation last emitted for it already equals the document of the result; results without the apiVersion of the target (a criterion: the last stage is a projection that yields none) always count as different, so every object that should exist is repaired. False in full: results that carry the kind of the target are never repaired (C68_stuck_refuted, C68_blind), and objects that should not exist stay (C68_orphan_refuted). Proved for joins followed by selections and projections, with at most one document for each name."
  },
  {
   "property": "C69",
   "status": "partial",
   "theorems": [
    "C69_shown_partial",
    "C69_current_partial",
    "C69_exact",
    "C69_rest",
    "C69_stuck_refuted",
    "C69_limited_refuted",
    "C69_sticky_refuted",
    "C69_last_refuted",
    "C69_stale_refuted"
   ],
   "note": "Proved for all interleavings, if workers meet no error before the first status is written and no update is given up; the status is complete if errors come slowly. Refuted otherwise: more than 64 broken controllers, errors within two seconds, errors before the first status, and controllers are never Ready again. One operator at a time; replacement of operators is not included."
  },
  {
   "property": "C70",
   "status": "partial",
   "theorems": [
    "C70_serial_partial",
    "C70_object_partial",
    "C70_whole",
    "C70_wait_free",
    "C70_lost_update_refuted",
    "C70_patchers_refuted",
    "C70_resurrect_refuted",
    "C70_twice_refuted",
    "C70_internal_refuted",
    "C70_collection_refuted"
   ],
   "note": "Proved for all interleavings in which overlapping calls are about different objects, only read, or bring whole new objects; per object, whatever happens to others. Names with slashes, views of native kinds and negative zeros are left out, as in C53. Refuted for overlapping updates, patches and deletions of one object, and for the removal of collections. The events that calls trigger are the subject of C31."
  },
  {
   "property": "C71",
   "status": "partial",
   "theorems": [
    "C71_pure_partial",
    "C71_many_partial",
    "C71_names",
    "C71_isolated",
    "C71_project",
    "C71_select_partial",
    "C71_write_refuted",
    "C71_sibling_refuted",
    "C71_cycle_refuted",
    "C71_select_refuted",
    "C71_fused_refuted"
   ],
   "note": "Proved for expressions whose map literals have no key that leads through a place set by another key; for all expressions nothing outside the document is written, and an unfused projection changes nothing. Refuted for the other literals. Keys that are paths with wildcards, indices or filters are not modelled; for spare slice capacity see C73."
  },
  {
   "property": "C72",
   "status": "partial",
   "theorems": [
    "C72_cache",
    "C72_answers",
    "C72_events_partial",
    "C72_events",
    "C72_arguments",
    "C72_old_refuted",
    "C72_store_refuted"
   ],
   "note": "Contents and answers for all histories and all writes of users. Events: in full if no handler writes to what it gets, otherwise all but the old object of updates, which handlers share (refuted). The store of an informer exposes the objects of the view (refuted)."
  },
  {
   "property": "C73",
   "status": "partial",
   "theorems": [
    "C73_merge_partial",
    "C73_full",
    "C73_copies",
    "C73_parts",
    "C73_shared_refuted"
   ],
   "note": "For all lists of objects whose lists have no room for more, which holds for parts of copied documents; the first object may have lists with room that are in no other field. Refuted for lists with room in two fields, which merges make. Evaluation of the objects is not part of this model; the entries of maps are merged in the order of the keys."
  },
  {
   "property": "C74",
   "status": "partial",
   "theorems": [
    "C74_config_partial",
    "C74_config_runs_partial",
    "C74_views_partial",
    "C74_views_runs_partial",
    "C74_services_partial",
    "C74_services_runs",
    "C74_health_partial",
    "C74_watched_partial",
    "C74_config_refuted",
    "C74_mixed_refuted",
    "C74_unlabel_refuted"
   ],
   "note": "Proved, with the fact that no event fails, if JSONPath reads plain fields (and the readiness condition by its filter), no two ConfigDeployments name the same Deployment, application--namespace tells the monitored pairs apart, and no pod gains or loses the label of the health monitor; refuted without any of the last three. Delivery between the two controllers is a hypothesis."
  },
  {
   "property": "C75",
   "status": "partial",
   "theorems": [
    "C75_ports_partial",
    "C75_endpoints_partial",
    "C75_discovery_partial",
    "C75_shared_refuted"
   ],
   "note": "Proved, with the fact that no event fails, if JSONPath reads and writes plain fields and no two endpoints have the same namespace, Service and hash; refuted without the latter: an address in two slices of its Service loses its view when one slice goes away. Delivery between the two controllers is a hypothesis."
  },
  {
   "property": "C76",
   "status": "partial",
   "theorems": [
    "C76_ports_partial",
    "C76_gathered_partial",
    "C76_discovery_partial"
   ],
   "note": "Both controllers and their composition, for all histories in which Services list no two ports with the same protocol and number and the views are named as the first controller names them. Partial: JSONPath is assumed to read and write fields, and strings that are paths or @now are excluded."
  },
  {
   "property": "C77",
   "status": "partial",
   "theorems": [
    "C77_count_partial",
    "C77_managed_partial",
    "C77_settles_partial",
    "C77_managed_settles_partial",
    "C77_written_partial",
    "C77_circle_partial",
    "C77_missing_refuted"
   ],
   "note": "Both operators for all histories; the write for all clusters; the write and the event it causes composed for the operator of the README. Partial: JSONPath is assumed to read fields; Pods without a list of containers are excluded (C77_missing_refuted: they are annotated with 1); the cache is up to date and nobody else writes at the same moment (C33, C34)."
  }
 ]
}
