{"id": "C01", "title": "Z-set addition and subtraction form an abelian group", "statement": "For Z-sets a, b, c: the multiplicity of every document in a.Add(b) is the sum of its multiplicities in a and b, and in a.Subtract(b) it is their difference; hence Add is commutative and associative, the empty Z-set is neutral, and a.Subtract(a) reports IsZero.", "quantifier": "all Z-sets reachable from the empty one by any sequence of public operations, all documents, all multiplicities", "why_tests_cant": "Group laws quantify over all triples of collections; tests pick a few documents and a few counts and never all cancellation patterns.", "anchors": ["pkg/dbsp/zset.go:Add", "pkg/dbsp/zset.go:Subtract", "pkg/dbsp/zset.go:AddDocumentMutate", "pkg/dbsp/zset.go:GetMultiplicity", "pkg/dbsp/zset.go:IsZero"]}
{"id": "C02", "title": "Z-set observers agree with each other", "statement": "After any sequence of public Z-set operations no stored document has multiplicity zero, every stored document is stored under its own identity, each document is listed at most once, List reports exactly the documents with non-zero multiplicity, GetDocuments repeats each document exactly max(multiplicity,0) times, GetUniqueDocuments lists exactly the positive ones, and Size, TotalSize, UniqueCount, IsZero and Contains all agree with GetMultiplicity.", "quantifier": "all finite sequences of Z-set operations with arbitrary documents and counts", "why_tests_cant": "The invariant must survive every interleaving of insertions and cancellations, an unbounded set of histories.", "anchors": ["pkg/dbsp/zset.go:List", "pkg/dbsp/zset.go:GetDocuments", "pkg/dbsp/zset.go:GetUniqueDocuments", "pkg/dbsp/zset.go:Size", "pkg/dbsp/zset.go:TotalSize", "pkg/dbsp/zset.go:UniqueCount", "pkg/dbsp/zset.go:Contains"]}
{"id": "C03", "title": "Z-set results do not depend on map iteration order or insertion order", "statement": "Building a Z-set from the same (document, count) pairs in any order, and evaluating Add, Subtract, Distinct, Unique, select, project, unwind and join under any Go map iteration order, yields the same multiplicity for every document.", "quantifier": "all permutations of inputs and all iteration orders chosen independently at every loop", "why_tests_cant": "Go randomises map iteration; a test run observes one order out of factorially many.", "anchors": ["pkg/dbsp/zset.go", "pkg/dbsp/op_linear.go", "pkg/dbsp/op_bilinear.go:cartesianJoin"]}
{"id": "C04", "title": "Distinct and Unique give set semantics", "statement": "Distinct maps every positive multiplicity to 1 and drops everything else; Unique maps every multiplicity to its sign; both are idempotent; Distinct of a Z-set with only positive multiplicities has the same set of documents.", "quantifier": "all Z-sets", "why_tests_cant": "Quantifies over all multiplicity assignments.", "anchors": ["pkg/dbsp/zset.go:Distinct", "pkg/dbsp/zset.go:Unique", "pkg/dbsp/op_misc.go:DistinctOp"]}
{"id": "C05", "title": "Select, project and unwind are linear", "statement": "For select, project and unwind, evaluating on a.Add(b) gives the Z-set sum of the evaluations on a and on b, evaluating on the empty Z-set gives the empty Z-set, and the evaluation of a difference is the difference of the evaluations (so feeding deltas one at a time accumulates to evaluating the whole).", "quantifier": "all Z-sets and all per-document evaluators that respect document identity, including negative multiplicities and cancelling documents", "why_tests_cant": "Linearity is the soundness condition for running these operators on deltas without state; it must hold for every pair of inputs.", "anchors": ["pkg/dbsp/op_linear.go:ProjectionOp.Process", "pkg/dbsp/op_linear.go:SelectionOp.Process", "pkg/dbsp/op_linear.go:UnwindOp.Process"]}
{"id": "C06", "title": "Integration and differentiation are inverse on every stream", "statement": "Feeding any stream of Z-sets through an integrator and then a differentiator returns the same stream, and so does a differentiator followed by an integrator; a delay emits the empty Z-set and then the stream shifted by one.", "quantifier": "all finite streams of Z-sets", "why_tests_cant": "Requires induction over stream length.", "anchors": ["pkg/dbsp/op_misc.go:IntegratorOp", "pkg/dbsp/op_misc.go:DifferentiatorOp", "pkg/dbsp/op_misc.go:DelayOp"]}
{"id": "C07", "title": "The incremental n-ary join equals the snapshot join of the accumulated inputs", "statement": "For any number of inputs and any stream of input deltas, the sum of the outputs of the incremental n-ary join over a prefix equals the snapshot n-ary join of the summed inputs of that prefix, and the multiplicity of each joined tuple is the product of its components' multiplicities.", "quantifier": "all arities, all delta streams, all join predicates respecting document identity", "why_tests_cant": "The 2^n-1 term expansion must be right for every arity and history; tests use two or three inputs and a few steps.", "anchors": ["pkg/dbsp/op_bilinear.go:IncrementalJoinOp.Process", "pkg/dbsp/op_bilinear.go:cartesianJoin", "pkg/dbsp/op_bilinear.go:JoinOp.Process"]}
{"id": "C08", "title": "The incremental binary join equals the snapshot join and agrees with the n-ary join", "statement": "For any stream of left and right deltas, the accumulated outputs of the incremental binary join equal the snapshot binary join of the accumulated inputs, and at every step the binary and the two-input n-ary incremental joins emit Z-sets with the same multiplicities.", "quantifier": "all delta streams and join predicates", "why_tests_cant": "Equivalence of two stateful implementations over unbounded histories.", "anchors": ["pkg/dbsp/op_bilinear.go:IncrementalBinaryJoinOp.Process", "pkg/dbsp/op_bilinear.go:BinaryJoinOp.Process"]}
{"id": "C09", "title": "Lifting a non-linear operator between I and D is its correct incremental version", "statement": "For gather and distinct, running integrator, operator, differentiator on any stream of deltas emits at each step exactly the change of the operator's result on the accumulated input; hence the accumulated outputs always equal the operator applied to the accumulated input.", "quantifier": "all delta streams, all non-linear operators of the package", "why_tests_cant": "Induction over histories.", "anchors": ["pkg/dbsp/rewrite_engine.go:NonLinearLiftingRule", "pkg/dbsp/op_nonlinear.go:GatherOp.Process", "pkg/dbsp/op_misc.go"]}
{"id": "C10", "title": "@gather collects exactly the values of each group, deterministically", "statement": "On a Z-set with non-negative multiplicities, gather emits one document per distinct key value, carrying the sorted list of the group's values each repeated by multiplicity; documents with a nil key or value are ignored; and the result does not depend on Go map iteration order.", "quantifier": "all Z-sets, extractors and aggregators; all iteration orders", "why_tests_cant": "Order independence is over all permutations; the group/value correspondence is over all inputs, including values of mixed numeric types.", "anchors": ["pkg/dbsp/op_nonlinear.go:GatherOp.Process", "pkg/dbsp/op_nonlinear.go:sortValues", "pkg/dbsp/op_nonlinear.go:removeFirstMatch", "pkg/dbsp/dbsp.go:SortGatherValues"]}
{"id": "C11", "title": "Every rewrite rule preserves the meaning of the pipeline", "statement": "Fusing selections and projections, removing integrate-differentiate pairs and collapsing repeated distincts leaves the output stream of the chain unchanged for every input stream.", "quantifier": "all operator chains and all input streams", "why_tests_cant": "Program equivalence over all chains and all histories.", "anchors": ["pkg/dbsp/rewrite_engine.go", "pkg/dbsp/fused_op.go"]}
{"id": "C12", "title": "Optimisation terminates and succeeds on every pipeline a user can write", "statement": "For every pipeline specification (any number and order of select, project, unwind and gather stages, with or without a join), optimisation reaches a fixpoint and never reports non-convergence, whatever the length of the pipeline.", "quantifier": "all pipelines of any length", "why_tests_cant": "The engine stops after 20 iterations; only an induction over pipeline length shows the limit is never met.", "anchors": ["pkg/dbsp/rewrite_engine.go:Optimize", "pkg/pipeline/pipeline.go:New"]}
{"id": "C13", "title": "Incremental execution equals from-scratch execution for the whole optimised graph", "statement": "For any graph built from inputs, an optional join and a chain of select, project, unwind and gather stages, after optimisation, the accumulated output of the incremental executor over any stream of input deltas equals the output of evaluating the original stages once on the accumulated inputs.", "quantifier": "all graphs of this shape, all evaluators respecting identity, all delta streams", "why_tests_cant": "The product's central promise (incremental view maintenance); it ranges over all pipelines and all histories at once.", "anchors": ["pkg/dbsp/executor.go:Process", "pkg/dbsp/rewrite_engine.go:Optimize", "pkg/dbsp/chain.go"]}
{"id": "C14", "title": "A failed evaluation leaves no trace", "statement": "If evaluating a delta returns an error, a later evaluation behaves as if the failed one had never been submitted, so retrying the same delta after the cause is gone yields the correct accumulated output.", "quantifier": "all chains, all histories, all failing steps", "why_tests_cant": "Crash/error points inside multi-operator chains are combinatorial.", "anchors": ["pkg/dbsp/executor.go:Process", "pkg/dbsp/op_misc.go:IntegratorOp.Process", "pkg/pipeline/pipeline.go:Evaluate"]}
{"id": "C15", "title": "Reset returns the incremental executor to its initial behaviour", "statement": "After Executor.Reset, processing any stream gives the same outputs as a freshly constructed executor on that stream.", "quantifier": "all graphs and all histories before and after the reset", "why_tests_cant": "Quantifies over pre-histories and post-histories.", "anchors": ["pkg/dbsp/executor.go:Reset", "pkg/dbsp/executor.go:resetOperator"]}
{"id": "C16", "title": "Snapshot conversion preserves meaning and is available for every pipeline", "statement": "Converting an optimised incremental graph to a snapshot graph succeeds for every pipeline a user can build, and the snapshot graph computes the same result as the unoptimised stages on complete inputs; converting back to incremental form keeps the incremental meaning.", "quantifier": "all pipelines and all inputs", "why_tests_cant": "Ranges over all operator mixes.", "anchors": ["pkg/dbsp/graph_converter.go", "pkg/pipeline/pipeline.go:Sync"]}
{"id": "C17", "title": "The accumulated pipeline input mirrors the watched objects", "statement": "For every history of source events (added, updated, replaced, upserted, deleted), after each accepted event the accumulated input Z-set of the pipeline contains exactly the current source objects (without the UID that dcontroller gives to view objects), each with multiplicity one; a no-op update contributes nothing.", "quantifier": "all finite event histories over any number of objects", "why_tests_cant": "Induction over event histories including duplicates and re-creations.", "anchors": ["pkg/pipeline/zset_adaptor.go:ConvertDeltaToZSet", "pkg/cache/store.go"]}
{"id": "C18", "title": "Reconcile emits a minimal, ordered and complete set of target operations", "statement": "For every unordered list of add/delete deltas, the emitted operations contain at most one operation per namespaced name, all deletes precede all upserts, deletes are emitted only for objects the target held, a pure delete of an unknown object and a transient add+delete emit nothing, and applying the emitted operations to the previous target contents gives exactly the new internal target cache.", "quantifier": "all delta lists, all prior target caches, all iteration orders", "why_tests_cant": "Ranges over all batches, all prior states and all map orders.", "anchors": ["pkg/pipeline/zset_adaptor.go:Reconcile"]}
{"id": "C19", "title": "The target always equals the pipeline evaluated on the current sources", "statement": "For every pipeline of joins, selections, projections, unwinds and gathers and every history of source events, applying the emitted deltas in order to an initially empty target yields exactly the objects obtained by evaluating the pipeline from scratch on the current source objects.", "quantifier": "all pipelines, all event histories", "why_tests_cant": "End-to-end incremental view maintenance over unbounded histories.", "anchors": ["pkg/pipeline/pipeline.go:Evaluate", "pkg/pipeline/zset_adaptor.go", "pkg/dbsp/executor.go"]}
{"id": "C20", "title": "A target object survives as long as some source still produces it", "statement": "If several source objects map to the same target object and one of them is deleted, the target object remains (the deduplication that a distinct operator would give is achieved by Reconcile).", "quantifier": "all pipelines in which two source objects can yield the same target object, all histories", "why_tests_cant": "Depends on multiplicities accumulated over a history.", "anchors": ["pkg/dbsp/rewrite_engine.go:LinearChainRewriteEngine", "pkg/pipeline/zset_adaptor.go:ConvertZSetToDelta", "pkg/pipeline/zset_adaptor.go:Reconcile"]}
{"id": "C21", "title": "A state-of-the-world sync repairs the target and is idempotent", "statement": "After Sync the internal target contents equal the pipeline evaluated on the current source objects whatever they were before, and a second Sync without intervening events emits nothing.", "quantifier": "all pipelines, all source and target states", "why_tests_cant": "All prior (possibly drifted) target states.", "anchors": ["pkg/pipeline/pipeline.go:Sync"]}
{"id": "C22", "title": "Retrying a delta after a failed write converges", "statement": "If writing the emitted deltas to the target fails and the request is retried, the target eventually equals the pipeline evaluated on the current sources.", "quantifier": "all failure points and all event types", "why_tests_cant": "Failure injection at every write of every history.", "anchors": ["pkg/controller/reconcilers.go:IncrementalReconciler.Reconcile", "pkg/pipeline/pipeline.go:Evaluate"]}
{"id": "C23", "title": "Final target state is independent of the order in which independent source events arrive", "statement": "Two histories that contain, for each source object, the same sequence of events but interleave them differently lead to the same final target contents.", "quantifier": "all interleavings of per-object event sequences", "why_tests_cant": "Concurrent sources make the interleaving arbitrary.", "anchors": ["pkg/pipeline/pipeline.go:Evaluate", "pkg/controller/reconcilers.go"]}
{"id": "C24", "title": "A pipeline over several sources is usable whatever the kinds of the sources", "statement": "A controller that declares any list of sources and a @join accepts events from each of them; objects of different API groups are never confused.", "quantifier": "all lists of source resources", "why_tests_cant": "All combinations of kinds and groups.", "anchors": ["pkg/pipeline/pipeline.go:New", "pkg/pipeline/op.go:NewJoinOp", "pkg/dbsp/chain.go:AddInput"]}
{"id": "C25", "title": "Two documents share an identity only if they are equal", "statement": "The identity used for Z-set membership is equal for two documents exactly when the documents are equal as JSON values.", "quantifier": "all pairs of JSON documents", "why_tests_cant": "Injectivity of an encoder.", "anchors": ["pkg/dbsp/document.go:computeJSONKey", "pkg/dbsp/document.go:DeepEqual"]}
{"id": "C26", "title": "Patching is idempotent, complete and local", "statement": "Applying a patch twice is the same as applying it once; after patching, every non-null leaf of the patch is present in the object and every null map entry of the patch is absent; fields not mentioned by the patch keep their value; patching with the empty patch changes nothing.", "quantifier": "all JSON objects and patches", "why_tests_cant": "Structural induction over arbitrary JSON trees.", "anchors": ["pkg/object/patch.go:Patch", "pkg/object/patch.go:patch"]}
{"id": "C27", "title": "Merging JSON values keeps both sides", "statement": "Merging maps gives the union of keys with the right-hand value winning on conflicting leaves, merging lists concatenates, the nil value is a left identity, and merging is associative.", "quantifier": "all JSON values", "why_tests_cant": "Structural induction over arbitrary JSON trees.", "anchors": ["pkg/object/utils.go:MergeAny"]}
{"id": "C28", "title": "View API groups identify their operator", "statement": "Different operators own disjoint view API groups; the operator name is recovered from any of its view kinds; a group is recognised as a view group exactly when some operator owns it; mapping a native kind into an operator's views and back returns the original kind.", "quantifier": "all operator names, groups, versions and kinds", "why_tests_cant": "Injectivity over all strings.", "anchors": ["pkg/api/view/v1alpha1/group_version.go"]}
{"id": "C29", "title": "The view cache is a map with exact reads", "statement": "After any sequence of create, update and delete operations on views, a Get returns the last written content or NotFound, and List returns exactly the stored objects that satisfy the namespace, label and field selectors.", "quantifier": "all operation sequences over any number of objects and kinds", "why_tests_cant": "Refinement to an abstract map over unbounded histories.", "anchors": ["pkg/cache/view_cache.go", "pkg/cache/store.go"]}
{"id": "C30", "title": "View cache event streams replay to the cache contents", "statement": "For every history of writes, replaying the add/update/delete events delivered to a registered handler reconstructs exactly the cache contents, each handler gets the events in write order, and a handler registered late gets the existing objects first.", "quantifier": "all histories and registration points", "why_tests_cant": "Unbounded histories and registration times.", "anchors": ["pkg/cache/view_cache_informer.go", "pkg/cache/view_cache.go:Add", "pkg/cache/view_cache.go:Update", "pkg/cache/view_cache.go:Delete"]}
{"id": "C31", "title": "A handler registered concurrently with writes sees a consistent stream", "statement": "Under every interleaving of handler registration and cache writes, a handler never misses an object, never receives an object after its deletion and never receives a duplicate add.", "quantifier": "all interleavings of registration, writes and event delivery", "why_tests_cant": "Race conditions over all schedules.", "anchors": ["pkg/cache/view_cache_informer.go:AddEventHandler", "pkg/cache/view_cache.go:Add", "pkg/cache/view_cache.go:Delete"]}
{"id": "C32", "title": "A view watch is a faithful change stream of the selected objects", "statement": "For every history, applying the events of a watch with a namespace, label or field selector reconstructs exactly the objects that a List with the same selectors returns.", "quantifier": "all histories, all selectors, all consumer speeds", "why_tests_cant": "Selector transitions and slow consumers over unbounded histories.", "anchors": ["pkg/cache/view_cache.go:Watch", "pkg/cache/view_cache.go:sendEvent", "pkg/cache/view_cache.go:shouldIncludeObject"]}
{"id": "C33", "title": "Updater targets end up with the emitted content and writes are idempotent", "statement": "Writing an upsert delta to an updater target makes every non-metadata field of the target object equal to the delta's, keeps server-owned metadata, includes all labels and annotations of the delta, and writing the same delta again changes nothing; writing a delete delta removes the object and deleting a missing object is not an error.", "quantifier": "all existing objects and deltas", "why_tests_cant": "All pairs of objects.", "anchors": ["pkg/reconciler/target.go:update", "pkg/reconciler/target.go:mergeMetadata", "pkg/reconciler/ctrlutils.go"]}
{"id": "C34", "title": "Patcher targets add and withdraw exactly the emitted fields", "statement": "Writing an upsert delta to a patcher target changes only the fields named in the delta, and writing the corresponding delete delta afterwards removes exactly those fields and leaves every other field as it was.", "quantifier": "all objects and patches", "why_tests_cant": "Structural induction over arbitrary JSON trees.", "anchors": ["pkg/reconciler/target.go:patch", "pkg/reconciler/target.go:removeNestedMap", "pkg/object/patch.go"]}
{"id": "C35", "title": "Access control decisions are exactly the configured rules", "statement": "A resource request is allowed exactly when the namespace restriction admits it and some rule lists its verb, API group, resource and, for verbs on single objects and if the rule restricts names and the request has one, its name; adding a rule to a non-empty list never revokes access, adding a namespace to a non-empty list never revokes access; and no request outside the allowed namespaces succeeds.", "quantifier": "all users, rules and requests", "why_tests_cant": "Decision logic over all rule sets and requests.", "anchors": ["pkg/auth/rbac.go", "pkg/auth/authorizer.go:Authorize"]}
{"id": "C36", "title": "Wildcard patterns match as documented", "statement": "A pattern with a single asterisk matches exactly the strings with the given prefix and suffix around the asterisk; a pattern without an asterisk matches only itself.", "quantifier": "all patterns and strings", "why_tests_cant": "String matching over all inputs.", "anchors": ["pkg/auth/rbac.go:matchesWildcard"]}
{"id": "C37", "title": "Access is denied by default", "statement": "A user with no rules can access nothing, and removing a rule from a user never grants access.", "quantifier": "all users, rule lists and requests", "why_tests_cant": "Monotonicity over all rule sets.", "anchors": ["pkg/auth/rbac.go:CheckRBACAccess", "pkg/auth/authorizer.go:Authorize"]}
{"id": "C38", "title": "Predicate trees filter as boolean formulas and survive serialisation", "statement": "A predicate tree accepts an event exactly when the boolean formula it denotes is true of its basic predicates, and marshalling then unmarshalling a well-formed predicate gives the same predicate.", "quantifier": "all predicate trees and events", "why_tests_cant": "Structural induction over arbitrary trees.", "anchors": ["pkg/predicate/predicate.go"]}
{"id": "C39", "title": "Operator status reports the most recent errors in order", "statement": "After any sequence of reported errors the status shows exactly the last ten messages in order of occurrence, each message shortened to a bounded length, and popping removes the most recent message.", "quantifier": "all error sequences", "why_tests_cant": "Unbounded error histories.", "anchors": ["pkg/controller/status_reporter.go"]}
{"id": "C40", "title": "API server serves exactly the registered view kinds", "statement": "After any sequence of group registrations and unregistrations, a view resource is served exactly when its kind is in the most recent registration of its group, and after unregistering a group none of its resources is served.", "quantifier": "all registration histories", "why_tests_cant": "Unbounded histories of dynamic registrations.", "anchors": ["pkg/apiserver/registry.go", "pkg/apiserver/resource_handler.go"]}
{"id": "C41", "title": "Pipeline specifications survive the API round trip", "statement": "Marshalling any pipeline and unmarshalling the result gives a pipeline with the same stages in the same order, and a deep copy is independent of the original. A declaration is accepted exactly if each of its stages is a map from the name of one known operator to a valid expression.", "quantifier": "all pipelines and all JSON values", "why_tests_cant": "All stage sequences and expression trees.", "anchors": ["pkg/api/operator/v1alpha1/pipeline_types.go"]}
{"id": "C42", "title": "Expressions survive the API round trip", "statement": "Marshalling any expression and unmarshalling the result gives an expression that evaluates identically.", "quantifier": "all expression trees", "why_tests_cant": "Structural induction over arbitrary expression trees.", "anchors": ["pkg/expression/marshaler.go"]}
{"id": "C43", "title": "Boolean and list expressions obey their documented laws", "statement": "@and, @or, @not, @eq, @in, @len, @any, @all, @none, @filter, @map, @concat and @sum compute the documented function of their evaluated arguments, and evaluation is deterministic.", "quantifier": "all expressions and documents", "why_tests_cant": "All arguments.", "anchors": ["pkg/expression/expression.go"]}
{"id": "C44", "title": "Identifiers derived for objects are stable and collision-free by construction", "statement": "The UID computed for an object depends only on its identifying components, and different component lists give different hash inputs; removing a UID restores the object that was tagged.", "quantifier": "all objects and component strings", "why_tests_cant": "Injectivity over all strings.", "anchors": ["pkg/object/uid.go"]}
{"id": "C45", "title": "The operator registry reflects the operator objects", "statement": "After any sequence of operator add, update and delete events, exactly the operators whose last event was not a delete are running, each with the controllers of its latest specification, and each owned view kind is registered exactly once.", "quantifier": "all event sequences", "why_tests_cant": "Unbounded lifecycles.", "anchors": ["pkg/kubernetes/controllers/operator.go", "pkg/operator/operator.go"]}
{"id": "C46", "title": "A source with a selector delivers exactly the matching objects", "statement": "A source that is restricted by a namespace, a label selector or a predicate presents to its pipeline, after any history of events, exactly the objects that currently match; an object that stops matching disappears from the pipeline.", "quantifier": "all selectors, namespaces, predicates and event histories", "why_tests_cant": "Every transition into and out of the selection in unbounded histories.", "anchors": ["pkg/reconciler/source.go:GetSource", "pkg/predicate/predicate.go"]}
{"id": "C47", "title": "A retried event never overrides a newer one", "statement": "When the processing of an event fails and the event is retried later, after newer events of the same object, the target still ends up showing the newest version of the object.", "quantifier": "all histories, failures and retry delays", "why_tests_cant": "Interleavings of retries with new events are unbounded.", "anchors": ["pkg/controller/reconcilers.go", "pkg/reconciler/source.go", "pkg/pipeline/pipeline.go"]}
{"id": "C48", "title": "Concurrent sources of one controller write in evaluation order", "statement": "The sources of one controller are processed by concurrent workers; whatever the schedule, the target ends up as if the emitted operations had been written in the order in which the pipeline produced them.", "quantifier": "all worker schedules", "why_tests_cant": "Schedules are unbounded and races rare.", "anchors": ["pkg/controller/declarative.go:NewDeclarative", "pkg/pipeline/pipeline.go:Evaluate", "pkg/controller/reconcilers.go:Reconcile"]}
{"id": "C49", "title": "Secret values reach pipelines in plain text, decoded exactly once", "statement": "The data fields of a Secret enter the pipeline as the bytes they encode, on the first attempt and on every retry; all other objects and fields enter unchanged; and a change of a Secret's bytes is seen by the pipeline.", "quantifier": "all Secrets, all byte strings, all numbers of retries", "why_tests_cant": "All byte strings and all retry histories.", "anchors": ["pkg/object/secret.go:DecodeSecretData", "pkg/controller/reconcilers.go:Reconcile"]}
{"id": "C50", "title": "Writing a sub-resource of a view replaces that part and nothing else", "statement": "After any history of writes, writing the status sub-resource of a view object replaces the status of that object with the one given, leaves all its other fields as they are whatever the given object says, and touches no other object; if the object does not exist nothing is written.", "quantifier": "all histories, all objects and sub-resource contents", "why_tests_cant": "Frame property over unbounded histories and arbitrary documents.", "anchors": ["pkg/cache/view_client.go"]}
{"id": "C51", "title": "A declared pipeline keeps its target equal to the meaning of the declaration", "statement": "After any history of source events, the target holds exactly the objects that the declared stages yield for the current source objects, read as plain operations on lists: @join sees every combination of source objects, @select keeps the objects whose expression is true, @project replaces each object by the value of its expression, @unwind yields one object for each list element with the index appended to the name, @gather merges the objects with equal keys and collects their values.", "quantifier": "all declarations, all expressions, all histories of additions, updates and deletions, all iteration orders of Go maps", "why_tests_cant": "Ties unbounded programs of stages and unbounded histories of incremental, optimised evaluation to their from-scratch meaning.", "anchors": ["pkg/pipeline/op.go", "pkg/pipeline/pipeline.go:New", "pkg/pipeline/pipeline.go:Evaluate", "pkg/expression/expression.go:Evaluate"]}
{"id": "C52", "title": "Label selectors pick exactly the objects they describe", "statement": "{\"@selector\": [selector, labels]} is true exactly if the labels contain every pair listed under matchLabels (or, without matchLabels and matchExpressions, every pair of the selector itself) and meet every entry of matchExpressions, where In and NotIn, Exists and DoesNotExist are opposites. The order of entries does not matter, more entries never pick more, only the labels named by the selector count, and whether a selector is accepted does not depend on the labels.", "quantifier": "all selectors and all label maps, with values of any JSON type", "why_tests_cant": "Laws over unbounded selectors and label maps.", "anchors": ["pkg/expression/selector.go:MatchLabels", "pkg/expression/selector.go:convertToLabelSelector", "pkg/expression/expression.go:831"]}
{"id": "C53", "title": "Requests to the API server act on views as on a map, and only on what they name", "statement": "Whatever requests the API server has served for the registered kinds, mixed with writes by the pipelines, every GET, LIST, POST, PUT, DELETE and DELETE of a collection returns and does what it would on a map from kind, namespace and name to object, and the watchers are told exactly these changes. What is stored is what was sent, under the kind and namespace of the URL. A request neither reads nor changes objects of other kinds or other namespaces, a failing request changes nothing, and what a write returns is what GET then shows.", "quantifier": "all histories of requests and other writes, all objects, validation functions and selectors", "why_tests_cant": "Unbounded histories and arbitrary objects; isolation is a statement about pairs of histories.", "anchors": ["pkg/apiserver/storage.go:Create", "pkg/apiserver/storage.go:Update", "pkg/apiserver/storage.go:Delete", "pkg/apiserver/storage.go:DeleteCollection", "pkg/composite/view_client.go"]}
{"id": "C54", "title": "Tables for kubectl show each object in its row", "statement": "A table has one row for each object of the list, in order, with a cell for each column. The Conditions cell shows the complete conditions in the order Ready, Available, Progressing, Degraded, others, keeping the order of the object among equals, at most three of them with a count of the rest; the Labels cell shows the labels, at most three with a count of the rest; Annotations are counted. The same object is always shown in the same way.", "quantifier": "all lists of objects, all conditions (also malformed ones), labels and annotations", "why_tests_cant": "Arbitrary lists of conditions and the random iteration order of Go maps.", "anchors": ["pkg/apiserver/storage.go:ConvertToTable", "pkg/apiserver/storage.go:extractConditionsSummary", "pkg/apiserver/storage.go:formatLabels"]}
{"id": "C55", "title": "A request reaches views only with a valid token that grants it; what is judged is what is done", "statement": "With authentication on, a request without a token that the server should honour is answered 401, one that its token does not grant is answered 403, and neither changes anything. After any history, if an object of a view differs after a request then the token of the request grants writing that object, by its kind, namespace and name; every object in an answer, or that a watch selects, is one the token grants; and two histories that differ only in objects about which the token grants nothing are answered alike. A granted request for the URL of an object is passed to the storage of its kind with that namespace and name.", "quantifier": "all histories of registrations, requests and writes, all requests (methods, paths, headers, bodies, patches), tokens and times", "why_tests_cant": "Arbitrary paths, bodies and patches; noninterference is a statement about pairs of histories.", "anchors": ["pkg/apiserver/builder.go", "pkg/apiserver/resource_handler.go:ServeHTTP", "pkg/apiserver/storage.go", "pkg/auth/authenticator.go:AuthenticateRequest", "pkg/auth/authorizer.go:Authorize"]}
{"id": "C56", "title": "A token gives exactly the rights it was made with, from when it was made until it expires", "statement": "The API server knows the user of a request exactly when the request carries a bearer token that is signed with the server's key and is within its time; the user then has exactly the namespaces and rules of the token. A token made by dctl gives what its flags ask for from when it was made until its expiry, and nothing afterwards, and get-config shows the user and rights of any token that the server honours. Restrictions given on the command line restrict, and private keys are written for their owner only.", "quantifier": "all headers, keys, times, users, namespaces, rules, flags and files", "why_tests_cant": "Arbitrary tokens, times and flag texts; that nothing else is accepted is a statement about all headers.", "anchors": ["pkg/auth/authenticator.go:AuthenticateRequest", "pkg/auth/token.go:GenerateToken", "pkg/auth/kubeconfig.go", "main.go"]}
{"id": "C57", "title": "Operators that share the view store all see the same objects and do not disturb each other's subscriptions", "statement": "All operators and the API server read and write one set of views: whatever operators subscribe, unsubscribe and stop, each of them reads the result of all writes. A subscription gets the objects that exist and then every change by any operator exactly once and in order, until it or its operator is ended, and nothing afterwards; what it gets does not depend on which other operators subscribe, unsubscribe or stop.", "quantifier": "all histories of writes, subscriptions, removals and stops by any number of operators, all kinds and objects", "why_tests_cant": "Any number of operators may come and go in any order between writes; isolation is a statement about pairs of histories.", "anchors": ["pkg/cache/delegating_view_cache.go", "pkg/cache/view_cache.go:RegisterDelegatingInformer", "pkg/cache/view_cache.go:UnregisterDelegatingInformer", "pkg/cache/view_cache_informer.go"]}
{"id": "C58", "title": "Discovery shows exactly the views that are registered", "statement": "After any history of registrations and unregistrations, discovery lists exactly the view kinds that were registered and not unregistered since, each once, in the resources of its group version and under its group; groups, versions and the preferred version are listed once; kinds, list kinds and resource names translate into each other and back; view groups are answered from the registered views and all other groups by Kubernetes, by the REST mapper too. The answers do not depend on the order in which maps are visited.", "quantifier": "all histories of registrations, all kinds, groups, resource names, orders and answers of Kubernetes", "why_tests_cant": "Map iteration order is random and any set of kinds may be registered; collisions only show for particular names and orders.", "anchors": ["pkg/cache/view_discovery.go", "pkg/cache/discovery.go", "pkg/cache/view_restmapper.go", "pkg/cache/restmapper.go"]}
{"id": "C59", "title": "Views and Kubernetes objects are kept apart by the composite client", "statement": "After any history of calls through the composite client, the views are the result of the writes of views alone, Kubernetes has got exactly the calls about other objects, and each side answers as if the calls about the other side had not been made. Without a Kubernetes connection views are served alike.", "quantifier": "all histories of calls, all objects, all behaviours of the Kubernetes side", "why_tests_cant": "Separation is a statement about all interleavings of calls and about every behaviour of the other side.", "anchors": ["pkg/cache/client.go", "pkg/cache/composite.go", "pkg/cache/api.go"]}
{"id": "C60", "title": "One-shot sources trigger once, and no period of a periodic source is missed", "statement": "A controller with a one-shot source gets exactly one request from it when it starts, whatever is written to other kinds. Whenever the period of a periodic source is over, a full reconciliation begins after that moment and is repeated until one ends without an error; reconciliations of one source do not overlap and are not more than the ticks and failures; the period is the one given in the source. Between a source and its reconciler no request is lost, and requests with objects are processed in the order of the events.", "quantifier": "all histories of writes, subscriptions and operators; all schedules of ticker, source, queue and workers with any failures; all periods", "why_tests_cant": "The schedule of ticks, slow reconciliations and retries is unbounded; a lost or doubled trigger shows only in particular interleavings.", "anchors": ["pkg/reconciler/source.go", "pkg/controller/declarative.go", "pkg/controller/reconcilers.go"]}
{"id": "C61", "title": "Controllers chained through views together compute the composition of their pipelines", "statement": "Several controllers run, some reading what others write. Whenever nothing waits in a queue and nothing is left to write, the target of each controller is what its pipeline computes from the current source objects, those made by other controllers included, and a target view holds an object for each result and no other.", "quantifier": "all sets of controllers with different target views, also in circles; all histories of outer objects; all starts and interleavings of the steps of the controllers; all map iteration orders", "why_tests_cant": "The interleavings of several controllers with their sources are unbounded, and a lost or doubled change in one of them shows only after particular schedules downstream.", "anchors": ["pkg/controller/declarative.go", "pkg/controller/reconcilers.go", "pkg/reconciler/target.go", "pkg/cache/view_cache.go", "pkg/cache/delegating_view_cache.go"]}
{"id": "C62", "title": "Controllers without circular dependencies come to rest", "statement": "If no controller depends, directly or not, on the view it writes, then once the outer objects no longer change the controllers stop working after finitely many steps, whatever the order of the steps, and they do not get stuck before.", "quantifier": "all acyclic sets of controllers, all histories before, all schedules", "why_tests_cant": "Termination of every schedule is not observable in any finite test.", "anchors": ["pkg/controller/declarative.go", "pkg/controller/reconcilers.go", "pkg/reconciler/target.go", "pkg/cache/view_cache.go"]}
{"id": "C63", "title": "What chained controllers show at rest depends only on the outer objects", "statement": "Two runs of the same acyclic set of controllers that are at rest over the same outer objects show the same views, whatever happened to the objects before, when the controllers were started, and in which order they took their steps.", "quantifier": "all acyclic sets of controllers, all pairs of histories and schedules with the same outer objects at the end, all map iteration orders", "why_tests_cant": "It compares all pairs of unbounded histories.", "anchors": ["pkg/controller/declarative.go", "pkg/reconciler/target.go", "pkg/cache/view_cache.go"]}
{"id": "C64", "title": "After a crash and a restart the targets are what the sources ask for", "statement": "The process may be killed at any moment, also between the computation of a result and its write or in the middle of a write, and the cluster may change while it is down. After it has been started again and has come to rest, every view and every native target holds exactly what the pipelines compute from the current source objects, and nothing else in the cluster has been touched; and it does come to rest.", "quantifier": "all sets of controllers with different targets, all histories and schedules, all crash points, any number of crashes, all states of the cluster at each restart", "why_tests_cant": "Crash points, schedules and the state in which others leave the cluster are unbounded; leftovers of an earlier run show only in particular combinations.", "anchors": ["pkg/controller/declarative.go", "pkg/controller/reconcilers.go", "pkg/pipeline/pipeline.go", "pkg/reconciler/target.go", "pkg/cache/view_cache.go"]}
{"id": "C65", "title": "An operator does what its specification says", "statement": "From the specification of an operator alone one can tell what its targets will hold: every controller that can be made runs, a controller that cannot be made does not disturb the others, a source that names the target of another controller reads exactly what that controller writes, and once the operator has come to rest each target holds, for each object that the controller's stages yield for the current source objects, this object and no other, whatever the history, the schedule and the crashes; and the operator does come to rest.", "quantifier": "all operator specifications with any number of controllers (some of them broken), all stages and expressions, all histories, schedules, crash points and states of the cluster at each restart", "why_tests_cant": "Specifications, histories and schedules are unbounded, and the property spans the whole path from the specification through expressions, incremental evaluation, views, watches and writers.", "anchors": ["pkg/operator/operator.go", "pkg/controller/declarative.go", "pkg/pipeline/pipeline.go", "pkg/expression/expression.go", "pkg/reconciler/resource.go", "pkg/reconciler/target.go", "pkg/cache/view_cache.go"]}
{"id": "C66", "title": "The OpenAPI definitions describe the registered kinds", "statement": "Whenever a client asks the extension API server for its OpenAPI definitions, for either version of OpenAPI, the answer has exactly one definition for each view kind that is registered at that moment and one for its list whose items are of that kind, next to the common definitions, none of which is lost; every definition that is referred to is there; and every request is answered.", "quantifier": "all histories of registrations and unregistrations of all sets of kinds, all interleavings with any number of requests, all orders in which maps are gone through", "why_tests_cant": "The caches of the definitions are filled and dropped by concurrent requests and registrations; only some interleavings show stale definitions, and name clashes need particular kinds.", "anchors": ["pkg/apiserver/openapi.go:getOpenAPIv2Handler", "pkg/apiserver/openapi.go:getOpenAPIv3Handler", "pkg/apiserver/openapi.go:generateOpenAPIDefs", "pkg/apiserver/registry.go:RegisterAPIGroup", "pkg/apiserver/registry.go:UnregisterAPIGroup"]}
{"id": "C67", "title": "The diagram of an operator shows its data flow", "statement": "In the diagram that is drawn of an operator, there is an arrow from a resource to a controller, labelled with the type of the source, exactly if the specification declares that the controller reads the resource in this way, and an arrow from a controller to a resource, labelled with the type of the target, exactly if it declares that the controller writes it in this way. Different things have different nodes; each node of a controller shows its name and operations, each other node the resource.", "quantifier": "all operators with any number of controllers, sources and stages, all names, groups, versions and kinds", "why_tests_cant": "Whether an arrow is drawn depends on all other controllers of the operator; the tests look for some strings in the output for a few operators.", "anchors": ["pkg/visualize/visualize.go:BuildGraph", "pkg/visualize/visualize.go:buildConnections", "pkg/visualize/visualize.go:IsTerminalView", "pkg/visualize/visualize.go:BuildDotGraph", "pkg/visualize/visualize.go:FormatGVK"]}
{"id": "C68", "title": "A periodic reconciliation repairs the target", "statement": "After failed writes, or after somebody else has changed, deleted or added objects of the target kind, the next periodic reconciliation that succeeds makes the target equal to the pipeline's result on the current source objects.", "quantifier": "all declared pipelines, all histories of events, failures and reconciliations, all contents of the target, all iteration orders", "why_tests_cant": "It must hold for every way in which the target can differ from what the controller has written so far; the tests reconcile targets that only the controller has touched.", "anchors": ["pkg/pipeline/pipeline.go:Sync", "pkg/controller/reconcilers.go:StateOfTheWorldReconciler.Reconcile", "pkg/pipeline/zset_adaptor.go:Reconcile"]}
{"id": "C69", "title": "The status of an Operator object shows the errors of its controllers", "statement": "When a controller of an operator meets an error, at construction or at run time, the status of the Operator object comes to show it: once everything is at rest, the status lists every declared controller in order, with its last ten errors, Ready if it never had one and not Ready if it could not be constructed. Reporting errors never keeps the operator from starting or working.", "quantifier": "all specifications, all sequences and times of errors, all interleavings of workers, forwarder, status updater, reconciler and other clients, all conflicts and delays of reads", "why_tests_cant": "The errors pass a rate limiter, two channels and retried writes of snapshots taken at different moments; lost or outdated reports depend on the schedule and on times.", "anchors": ["pkg/controller/status_reporter.go:push", "pkg/operator/operator.go:AddSpec", "pkg/operator/operator.go:GetStatus", "pkg/kubernetes/controllers/operator.go:AddOperatorFromSpec", "pkg/kubernetes/controllers/operator.go:startOp", "pkg/kubernetes/controllers/operator.go:Start", "pkg/kubernetes/controllers/operator.go:updateStatus"]}
{"id": "C70", "title": "Requests and pipeline writes that overlap behave as if made one after the other", "statement": "When requests to the API server and writes by pipelines overlap, every one of them returns and does what it would have if they had been made one at a time, in some order that agrees with time. In particular no change that was reported as successful is lost or undone by another that overlaps with it, and no call waits for others.", "quantifier": "all numbers of concurrent calls, all kinds of requests and writes, all interleavings of their accesses to the view store", "why_tests_cant": "Each call makes up to three or more separately locked accesses to the store; which interleavings occur depends on the schedule, and there are unboundedly many.", "anchors": ["pkg/apiserver/storage.go:Update", "pkg/apiserver/storage.go:Delete", "pkg/apiserver/storage.go:DeleteCollection", "pkg/cache/view_client.go:Update", "pkg/cache/view_client.go:Patch", "pkg/cache/view_cache.go:Add", "pkg/cache/view_cache.go:Update", "pkg/cache/view_cache.go:Delete", "pkg/cache/view_cache.go:Get", "pkg/cache/view_cache.go:List"]}
{"id": "C71", "title": "Evaluating an expression leaves its document, and everything else, as it was", "statement": "Evaluating an expression on a document never changes the document or any other value that can be read elsewhere, although results share maps and lists with it: expressions that are evaluated later on the same document see it as it was, also if the evaluation fails. The result is what evaluation on copied values gives.", "quantifier": "all expressions, all documents and all ways in which values share maps and lists in memory, all orders of map iteration", "why_tests_cant": "Sharing shows only in combinations of expressions: a later write must hit a map that an earlier key, element or stage put into the result by reference.", "anchors": ["pkg/expression/expression.go:Evaluate", "pkg/expression/jsonpath.go:SetJSONPath", "pkg/expression/jsonpath.go:GetJSONPath", "pkg/dbsp/op_linear.go:ProjectionOp.Process", "pkg/dbsp/op_linear.go:SelectionOp.Process", "pkg/dbsp/fused_op.go:Process", "pkg/dbsp/document.go:DeepCopyDocument"]}
{"id": "C72", "title": "Objects handed to a view or got from it are no longer connected with it", "statement": "A view keeps the objects as they were when they were written. What callers do later with an object that they wrote, read, listed or were notified with changes neither the view nor the answers and notifications of others; answers are fresh objects; calls never change their arguments.", "quantifier": "all histories of calls by any number of callers and handlers, interleaved in any way with arbitrary changes of the objects that they hold", "why_tests_cant": "A missing copy shows only if someone keeps an object, changes it later, and somebody else looks after that; each of the calls would have to be tried with each way to get hold of an object.", "anchors": ["pkg/cache/view_cache.go:Add", "pkg/cache/view_cache.go:Update", "pkg/cache/view_cache.go:Delete", "pkg/cache/view_cache.go:Get", "pkg/cache/view_cache.go:List", "pkg/cache/view_client.go:Update", "pkg/cache/view_client.go:Patch", "pkg/cache/view_cache_informer.go:TriggerEvent", "pkg/cache/view_cache_informer.go:AddEventHandler", "pkg/object/object.go:DeepCopy"]}
{"id": "C73", "title": "Projections that extend lists leave everything else alone", "statement": "When a projection merges several objects, each list of the result is the concatenation of the lists given for that field, also if the same list of the document is shown in several fields; the document itself and other values that share its lists stay as they were.", "quantifier": "all documents, all lists of objects, however they share lists, and all ways in which the runtime enlarges arrays", "why_tests_cant": "Whether append writes in place depends on the spare capacity of a list, which depends on how the list came about, and shows only if two places share it.", "anchors": ["pkg/object/utils.go:MergeAny", "pkg/object/utils.go:DeepCopyAny", "pkg/pipeline/op.go:ProjectionOp.Evaluate", "pkg/dbsp/fused_op.go:SelectThenProjectionsOp.Process"]}
{"id": "C74", "title": "The shipped examples do what their documentation says", "statement": "The ConfigMap example annotates exactly those Deployments that a ConfigDeployment ties to an existing ConfigMap of the same namespace, with the current resource version of that ConfigMap. The health monitor keeps one HealthView for each pair of namespace and label app of the monitored pods, with the name and readiness of all these pods, and annotates exactly the Services of that name and namespace with the number of ready pods and of all pods.", "quantifier": "all histories of additions, updates and deletions of the watched objects, all map iteration orders and all orders in which lists are sorted", "why_tests_cant": "The pipelines are evaluated incrementally, so a mistake may show only after a particular sequence of changes of several objects, and depends on which names and namespaces coincide.", "anchors": ["examples/configmap-deployment-controller/configdeployment-operator.yaml", "examples/service-health-monitor/svc-health-operator.yaml", "pkg/pipeline/pipeline.go:Evaluate", "pkg/api/operator/v1alpha1/pipeline_types.go:Pipeline"]}
{"id": "C75", "title": "The EndpointSlice operator lists exactly the ready endpoints of the annotated Services", "statement": "There is one ServiceView for each port of each Service with the annotation, and no others. There is one EndpointView for each annotated Service, each of its ports and each ready address in the EndpointSlices of the Service in the same namespace, and no others, with the address, port, target port, protocol, name and type of the Service, under a name made of the name of the Service and the hash of that content.", "quantifier": "all histories of additions, updates and deletions of Services, views and EndpointSlices, all map iteration orders and all orders in which lists are sorted", "why_tests_cant": "The pipelines are evaluated incrementally and unwind nested lists, so a stale or missing view may show only after a particular sequence of changes of several objects.", "anchors": ["examples/endpointslice-controller/endpointslice-controller-spec.yaml", "examples/endpointslice-controller/README.md", "pkg/pipeline/pipeline.go:Evaluate", "pkg/expression/expression.go:Evaluate"]}
{"id": "C76", "title": "The gathering EndpointSlice operator keeps all ready addresses of a port together", "statement": "With the gathering specification there is one ServiceView for each port of each Service with the annotation, named after the Service, the protocol and the port number, and one EndpointView for each such port whose Service has ready addresses, with the same name and with all ready addresses of the EndpointSlices of the Service in the same namespace, and no others, even while slices share addresses.", "quantifier": "all histories of additions, updates and deletions of Services, views and EndpointSlices, all map iteration orders and all orders in which lists are sorted", "why_tests_cant": "Addresses are gathered incrementally over joined and unwound objects, so a stale, missing or misplaced address may show only after a particular sequence of changes of several objects.", "anchors": ["examples/endpointslice-controller/endpointslice-controller-gather-spec.yaml", "examples/endpointslice-controller/README.md", "pkg/pipeline/pipeline.go:Evaluate", "pkg/dbsp/op_nonlinear.go:GatherOp"]}
{"id": "C77", "title": "The introductory operators annotate every pod, change nothing else and come to rest", "statement": "The operator of the README gives each Pod the annotation dcontroller.io/container-num with the number of its containers, and the operator of the getting-started guide gives each Pod the annotation dcontroller.io/managed with the value true. Writing an annotation changes no other annotation, no other field and no other object. The change events that their own writes cause make the operators write nothing further.", "quantifier": "all histories of additions, updates and deletions of Pods, all map iteration orders, all states of the cluster and all contents of Pods", "why_tests_cant": "Each operator reads and writes the same objects, so every write comes back as an event; that the loop always stops and never loses a field cannot be seen from a few runs.", "anchors": ["README.md", "doc/getting-started.md", "pkg/pipeline/pipeline.go:Evaluate", "pkg/reconciler/target.go:Write", "pkg/expression/expression.go:Evaluate"]}
