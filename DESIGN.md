# Formal model of l7mp/dcontroller in Rocq (Coq 8.16.1)

This file is the plan, the trusted base and the findings. It was written
before the proofs and is kept current.

## 1. Approach

The model is a set of total, computable Gallina functions, one per modelled Go
function, each with a comment citing the file and lines in `/repo`.

* **Documents and Z-sets.** The `pkg/dbsp` layer treats documents as opaque
  apart from their identity string. It is modelled over an abstract document
  type `D`, an identity type `K`, and `key : D -> option K` (`None` = the
  JSON encoder failed). A Z-set is the pair of Go maps `docs` and `counts`.
* **Go map iteration order.** Every `range` over a Go map takes its order from
  an oracle `ord : path -> gmap K Z -> list (K * Z)`. The path identifies the
  individual loop execution, so every loop execution may use a different
  order. The only assumption is that the oracle returns a permutation.
* **Errors** are values. A stateful operator returns its (possibly already
  modified) state together with `None` on error, so partial effects of failed
  evaluations are visible.
* **User code** (evaluators, extractors, aggregators: the compiled expression
  language) is a function argument. The one hypothesis needed is that it
  respects document identity; a refutation shows what happens without it.
* **Stateful components** (pipeline, view cache, target, registry, status
  reporter, API-server registry) are `init`/`step` state machines; histories
  are lists of events, and properties are proved by induction over histories.
* **Goroutines** (handler registration, watch delivery) are small-step
  machines whose schedules are arbitrary lists of steps.

Files under `rocq/theories/`: `*Model.v` hold definitions only, `*Spec.v` hold
independent specifications, `*Proofs.v` hold lemmas, `Props*.v` hold only the
property theorems, each followed by `Print Assumptions`, and the examples
showing that hypotheses are met.

If a property is false of the code, the theorem is named `..._refuted` and
gives a concrete witness; what does hold is proved as `..._partial`.

## 2. Plan per property

| id | modelled | proof |
|----|----------|-------|
| C01 | `DocumentZSet` Add/Subtract/AddDocumentMutate | multiplicity homomorphism by fold induction, then group laws pointwise |
| C02 | all observers | invariant over operation sequences, observers characterised by multiplicity |
| C03 | loops with order oracles | permutation invariance of folds |
| C04 | Distinct/Unique | pointwise characterisation |
| C05 | select/project/unwind | linear extension characterisation: output multiplicity is a weighted sum |
| C06 | I, D, delay | induction on streams |
| C07 | n-ary join, snapshot and incremental | multilinear expansion by induction on arity |
| C08 | binary join | bilinearity; equality with the n-ary join |
| C09 | lifted gather/distinct | telescoping over streams |
| C10 | gather | group characterisation; comparator cycle refutes determinism for mixed numbers |
| C11 | rewrite rules | stream equivalence per rule |
| C12 | Optimize | fixpoint argument with a bound on the number of rule applications |
| C13 | executor + optimiser | composition of C05-C11 |
| C14 | failing chains | witness: integrator already advanced (refuted); what holds for stateless chains |
| C15 | Reset | witness for the n-ary join; proved for the remaining operators |
| C16 | graph converter | case analysis; witnesses for unwind/gather |
| C17 | ConvertDeltaToZSet | invariant over event histories |
| C18 | Reconcile | grouping characterisation |
| C19 | Evaluate | composition of C13, C17, C18 |
| C20 | multiplicity collapse | witness (refuted) and the unique-key condition under which it holds |
| C21 | Sync | repair theorem; witness against idempotence |
| C22 | failed writes | witness histories; for additions to pipelines without joins and gathers, induction on the attempts |
| C23 | interleavings | corollary of C19 |
| C24 | pipeline construction | witness for equal kinds; proved for distinct kinds |
| C25 | JSON encoder | injectivity up to numbers; witness 1 vs 1.0 |
| C26-C27 | patch, merge | structural induction on JSON trees |
| C28 | group/version strings | string reasoning; witnesses for dotted names |
| C29-C32 | view cache, informers, watch | refinement to a map, replay, small-step schedules |
| C33-C34 | target writer, with what others do between its calls | structural induction; witnesses; a race is a write with a lagging cache |
| C35-C37 | RBAC | decision procedure against a declarative relation; witnesses |
| C38 | predicates | structural induction |
| C39 | status reporter | list reasoning |
| C40 | API-server registry | invariant over registration histories; witness |
| C41-C43 | pipeline spec, expressions | structural induction; witnesses |
| C44 | UID | string reasoning; witness |
| C45 | operator registry | state machine |
| C46 | source selection | invariant over event histories; witness for objects that stop matching |
| C47 | retries behind newer events; the work queue | corollary of C19; witness queue run; induction on the attempts |
| C48 | concurrent workers | simulation by the sequential run; witness schedule |
| C49 | Secret decoding | base64 round trip by induction; witnesses for retries and binary data |
| C50 | Sub-resources of views | corollary of the refinement of the view cache to a map (C29) |
| C51 | Meaning of declared pipelines | stages modelled on top of the expression model; Z-sets represented by lists of objects; composition with the correctness of the incremental executor (C12 to C24); that no event fails: a predicate on objects for each stage, carried through the states of the incremental operators |
| C52 | Label selectors | selector.go on top of recalled labels.Requirement; meaning, laws and refusals for all selectors |
| C53 | API requests | storage.go on top of the view cache and client; simulation by the map of C29, isolation by comparing two histories |
| C54 | kubectl tables | ConvertToTable and its cells; insertion sort is a stable sort; map iteration order is an argument |
| C55 | the way of a request | RequestInfo, the filters, routing and handlers down to the storage, composed with C35, C53 and C56; invariant over histories; noninterference between pairs of histories |
| C56 | tokens | authenticator, token generator, kubeconfigs and the dctl commands; golang-jwt is a class whose laws are hypotheses, met by a toy instance; times in nanoseconds cut to seconds |
| C57 | operators sharing the view store | the informers of the storage and of each operator's delegating cache as one state machine; simulation by the view cache of C29/C30 with a single subscriber; walks over the shared slice of informers as a separate state machine |
| C58 | discovery of views | the registered kinds as a map; iteration orders are arguments; induction over histories; the mapper of views is refuted for every view group |
| C59 | the composite client | views and an arbitrary state machine for Kubernetes side by side; product of two runs, noninterference |
| C60 | one-shot and periodic sources, the work queue | sources over the shared view store, a ticker with its goroutine, queue and worker as a state machine; invariants over all schedules |
| C61 | controllers chained through views | a network of controllers over shared views, one step of one controller at a time; invariant that relates each queue and pipeline to the views; C19 for each pipeline |
| C62 | acyclic networks come to rest | well-founded order on what waits, along the ranks of the controllers; progress from the invariant |
| C63 | the rest state is determined by the outer objects | induction along the ranks with C61 and uniqueness of the query result; refuted for labels kept by the writer |
| C64 | crash at any point and restart | the network of C61 with the cluster beside it and a crash step that forgets all memory and replaces the cluster by any other; invariant of one life that relates what a controller wrote since the start to the cluster as it was at the start; refuted for native objects whose sources vanished while the process was down |
| C65 | what a declared operator computes | controllers built from their specifications (kinds of resources, stages, broken ones skipped), put into the network with crashes of C64; the meaning of the stages (C51) on the current source objects, composed with the invariants of C61 and C64; termination from stages that fail for no document |
| C66 | OpenAPI definitions | requests as three steps (read the cache, generate, store) interleaved with registrations of the model of C40; invariant that all that is kept was generated for an earlier registry, and for the present one if no registration falls into a generation; names of definitions are injective for kinds without dots |
| C67 | diagrams of operators | nodes and arrows as computed from the specification; both directions between arrows and declared flows, through an injective naming of nodes |
| C68 | periodic repairs | `Sync` of the pipeline model of C19 to C22, its operations carried out on arbitrary contents of the target; an object is repaired exactly if the remembered operation differs from the result; criterion for pipelines that end in a projection; refuted for results that carry the kind of the target |
| C69 | status of operators | state machine of workers, limiter, channel, forwarder, status updater and reconciler; the status at rest is a snapshot from after the last error passed on (invariant over all interleavings); a measure for coming to rest; refuted for more than 64 broken controllers, errors in a hurry, and errors before the first status |
| C70 | overlapping calls | every call as a sequence of accesses to the stores, interleaved in any way; invariant: what is left of a call, run alone now, does what the whole call would; then the ideal map of C53, in the order of last accesses; per object by a simulation that forgets the others; refuted for overlapping updates, patches and deletions of one object, and for collections |
| C71 | shared memory | evaluation again, on a memory of cells, with map literals filled in place; simulation of the evaluation on values: every cell is either old and untouched or owned by the map being filled (trees of owned cells); for arbitrary expressions an invariant bounds what is written to the cells reachable from the document; refuted for literals whose keys lead through each other |
| C72 | objects of callers | the view cache again, on a memory of objects with a record of who has got which address; users overwrite what they have got at any time, handlers also while they are called; invariant: every object has a role (kept by the view, private to one handler, shared by handlers, public) and the objects of the view have no holder; hence the same contents, answers and events as ViewModel on the arguments at call time; refuted for the old object of updates and for the store of an informer |
| C73 | lists on shared memory | the merge of the objects of a projection again, on a memory of arrays with slices that may have room for more; simulation of the merge on values: the arrays of the result are old and untouched, or new and in one field only |
| C74 | the shipped examples | the pipelines of two shipped examples, decoded and compiled by the models of C42 and C51; the meaning of the stages on the current objects is computed symbolically and related to a description in terms of fields of the objects; the two controllers of the second example are composed |
| C75 | the EndpointSlice operator | both pipelines of the default specification, decoded and compiled by the models of C42 and C51; a chain of stages, each with what it does to the objects that reach it (`StageChain`), gives their meaning on the current objects, which is related to a description in terms of fields; the two controllers are composed |
| C76 | the gathering EndpointSlice operator | both pipelines of the gathering specification, in the same way; the groups of the last @gather are the views, as their keys are encodings of five fields, which determine the name of a view (encoding is injective, C25); names made of Service, protocol and number are parsed from the right |
| C77 | the introductory operators | the pipelines of README.md and doc/getting-started.md, decoded and compiled by the models of C42 and C51; what they hold after any history; an event after which the pipeline would yield the same objects causes no delta (`C51_quiet`, from exactness of the differences); the patch written by the model of C34, and the event that follows fed back |

## 3. Trusted base

* The Coq 8.16.1 kernel, including `vm_compute` (used for closed computations in
  witnesses and examples).
* `Print Assumptions` answers "Closed under the global context" for every theorem
  named in `MANIFEST.json`; it is printed after each of them in `Props*.v`. The
  development adds no axioms. `coqchk` also lists the seven `Under_rel` constants of
  Coq's own `ssr.ssrunder` (loaded by std++'s dependencies), which no theorem uses.
* std++ definitions that occur in statements (`gmap`, list functions, `decide`).
* The reading of the Go source as text, and the statements themselves. Nothing is
  extracted from or run against the Go code.
* What is recalled about code outside the repository (next section).

### Assumptions that are hypotheses of theorems, not axioms

* `Class FloatFmt`: Go's shortest float formatting is a function that is injective on
  floats and prints numeric characters only. Integer and float arithmetic itself is
  modelled (`spec_float`, 64-bit wrap-around).
* `Class ExprEnv`: the clock, the random numbers and the JSONPath library
  (ojg/jp, for paths beyond keys and indices) are functions, and so is the MD5 that
  `@hash` prints in base 36; `env_clean` asks that its text has digits and small letters only.
* `Class Jwt`: golang-jwt signs and verifies; its laws are stated as a predicate and
  met by the toy instance in `TestToken.v`.
* `hash`: SHA-256 of the UID text is any function.
* `lister`, `order`: map iteration orders are arbitrary permutations.
* `mapper`, `builds`, `servable`: the native RESTMapper and what may fail in the
  construction of controllers.
* The `TestPipe`, `TestExpr`, `TestStage` and `TestToken` modules hold instances that
  meet these hypotheses, so they are not contradictory.

### Recalled behaviour of code outside the repository

The libraries are not available in the sandbox. The following is modelled from memory
and cited as "recalled" where it is used.

* encoding/json: keys of maps are sorted, escaping, invalid UTF-8 becomes U+FFFD,
  numbers decode to int64 or float64 as in `k8s.io/apimachinery/pkg/util/json`.
* encoding/base64 `StdEncoding`: decoding ignores CR and LF, padding rules.
* apimachinery `unstructured` accessors (`NestedField`, `SetLabels`, `SetGroupVersionKind`,
  `GetLabels` giving nothing unless all values are strings), `schema.ParseGroupVersion`,
  `labels.Requirement`, `runtime.Scheme` registration panics, `ObjectMeta` conversion.
* client-go: `cache.Indexer` (a map by namespace/name), `workqueue` (dirty and
  processing sets), watch interfaces.
* controller-runtime: predicates (`GenerationChanged` and so on), `TypedKind` sources,
  retries with `AddRateLimited`, one worker for each controller.
* k8s.io/apiserver: `RequestInfo`, the handler chain, verbs, the registry calls of the
  handlers, `rest.UpdatedObjectInfo`, tables, discovery managers.
* Kubernetes API server as seen by the target writer: optimistic locking, generation,
  status as a sub-resource, JSON merge patch.
* golang-jwt `ParseWithClaims`, `Validator`, `NumericDate`; `time.ParseDuration` is a
  parameter; `time.Ticker` holds one tick.
* `sort.Slice` up to twelve elements is insertion sort; above it is only assumed to
  sort (`is_sort`).

## 4. What is modelled and what is not

All citations are in the comments of the `*Model.v` files.

| code in `/repo` | model | not modelled |
|---|---|---|
| pkg/dbsp/zset.go, document.go | ZSetModel, JsonModel | `String`, aliasing of documents (but see HeapModel) |
| pkg/dbsp/op*.go, fused_op.go, dbsp.go | OpsModel | names, `OpType` strings |
| pkg/dbsp/chain.go, executor.go, rewrite_engine.go, graph_converter.go | ExecModel | `String`, `GetNodeResult`, rule statistics |
| pkg/pipeline/op.go, pipeline.go, zset_adaptor.go | SortModel, StageModel, PipelineModel | logging, error texts |
| pkg/expression/*.go | ExprModel, StageModel, HeapModel (on shared memory) | `String`, error texts, Go types that JSON documents never hold |
| pkg/api/operator/v1alpha1/pipeline_types.go, zz_generated.deepcopy.go (pipelines) | PipeJsonModel | CRD validation markers |
| pkg/object/*.go | ObjModel, ValueModel, GroupModel, SliceModel (memory) | `Dump`, `DumpContent` |
| pkg/api/view/v1alpha1/group_version.go | GroupModel, ObjModel | scheme registration |
| pkg/cache/view_cache.go, view_cache_informer.go, view_client.go, store.go, util.go | ViewModel, AliasModel (memory) | `IndexField`, transforms, `Apply` |
| pkg/cache/delegating_view_cache.go | SharedModel | |
| pkg/cache/discovery.go, view_discovery.go, restmapper.go, view_restmapper.go, client.go, composite.go, api.go | DiscoModel | OpenAPI and version calls, `ResourceSingularizer` |
| pkg/reconciler/reconciler.go, source.go, resource.go | PredicateModel, SourceModel, OperatorModel | one-shot sources of native kinds |
| pkg/reconciler/target.go, ctrlutils.go | WriterModel | concurrent writers inside one `Write`, except where stated |
| pkg/predicate/predicate.go | PredicateModel | |
| pkg/controller/declarative.go, reconcilers.go, status_reporter.go | OperatorModel, ReconcilerModel, StatusModel, NetModel (several controllers together), LifeModel (crash and restart), DeclModel (from the specification to the network), FlowModel (rate limit of status triggers) | |
| pkg/operator/operator.go, pkg/kubernetes/controllers/operator.go | OperatorModel, FlowModel (status updates, one operator at a time) | the two calls of `crdMgr.Start`, the closing of the error channel |
| pkg/apiserver/apiserver.go, registry.go, dynamic_discovery.go, resource_handler.go, resource.go | RegistryModel, GateModel | server start and stop, sockets |
| pkg/apiserver/storage.go | StorageModel, OverlapModel (calls that overlap) | wire formats |
| pkg/apiserver/openapi.go | OpenModel | the schemas of single fields, the Kubernetes code that calls the handlers |
| pkg/apiserver/builder.go | GateModel (the chain of filters) | audit, flow control, CORS and the like |
| pkg/visualize/visualize.go | VisModel | attributes other than label and colour, rendering |
| pkg/auth/*.go | AuthModel, TokenModel | RSA, X.509, PEM |
| examples/configmap-deployment-controller, examples/service-health-monitor (pipelines) | ExampleModel | |
| examples/endpointslice-controller/endpointslice-controller-spec.yaml, endpointslice-controller-gather-spec.yaml (pipelines) | EndpointModel | main.go |
| README.md, doc/getting-started.md (pipelines of the annotators) | AnnotatorModel | the restriction of the source to one namespace (C46) |
| main.go (token commands) | TokenModel | flags parsing, `start`, printing |

Not modelled at all: pkg/visualize (rendering as text), pkg/apiserver/codec.go and
config.go (wire formats and settings), pkg/manager (assembly of controller-runtime
managers), pkg/controller/native.go and controller.go (wrappers), pkg/util, fakes and test
suites, the rest of the examples, internal/.

## 5. Findings

Where the code does not do what the property says, a theorem ending in `_refuted`
contains a closed witness or a proof for all inputs. The properties' notes in
`MANIFEST.json` say what remains true. A dagger marks findings that rest on recalled
behaviour of other code; findings without a theorem name were made while reading and
are not proved.

**Incremental pipelines.** A pipeline with `@gather` or `@unwind` cannot be converted
for state-of-the-world reconciliation (C16, C21). A failing stage leaves integrators
advanced; the retry of an update that could not be evaluated succeeds without effect, the
update that repairs the object fails too, and the target object of an object deleted in
that state stays for good (C14). Reset of an n-ary join keeps the inputs (C15). `@gather` lists depend on
map order, and the order of mixed numbers is not transitive (C10). Results with two
documents of one name are lost or doubled (C20). A retried `Added` counts an object
twice and a deletion with stale content leaves the old one (C17); a failed write of an
update is never repeated, and the retry of an addition leaves a ghost in a join and a
second entry in a gather (C22); a retried older event overrides a newer one (C47); the
writes of two sources may overtake each other (C48). Joins over two kinds of the same
name fail on every event (C24). Sync is not idempotent when the target keeps foreign
fields (C21). The int 1 and the float 1.0 are the same document (C25). A group whose
last member is taken out by a negative change still yields a document (C10). Fusion of
stages may turn success into failure (C11). An unknown kind is reported after the source
cache was changed; the rewrite rule for Distinct cannot apply after lifting.

**Expressions.** `@none` is never true; `@eq` and `@in` unpack a list given first;
missing values are not equal; `@concat` prints floats as `%!d(float64=...)`; map literals
with path keys depend on map order; strings that start with `$` or equal `@now` inside
documents are evaluated; a null element makes `$$` the whole object; some inputs panic
(C43). JSON round trips lose `@any`, integral floats and wrappers (C42); deep copies of
pipelines share arguments (C41). Label selectors of other shapes are ignored silently
(C52). `@unwind` of an object without a name is no error (C51).

**Shared memory.** A map literal with a path as a key writes into the maps that it meets on the
way, also if they belong to the document: `{"$.": "$.", "$.metadata.name": "x"}` renames the
document itself. Later elements of the same list see the change, a selection passes it on, a
projection fused with a selection too (a projection alone works on a copy). `{"$.": "$.",
"$.metadata.self": "$."}` makes the document cyclic, and the next copy overflows the stack. Written
as two elements of a list, as in the examples of the project, all this is safe (C71). Handlers of one
update event of a view all get the same old object, so one of them may change what the others see; the
store of an informer hands out the objects of the view themselves, and writing to one changes the view
without an event. The project does neither (C72). Merging the objects of a projection extends lists with
Go's `append`, in place if there is room. After a projection that merges lists, a second one that is fused
with it and extends the same list in two fields, `[{"a": "$.l", "b": "$.l"}, {"a": [10], "b": [20]}]`,
gives both fields the last element, 20 (C73). Lists of copied documents have no room, so there it is safe.

**Examples.** With two ConfigDeployments for one Deployment the one that changed last decides, and when it
is deleted the Deployment loses its annotation although the other one still asks for it (C74). The health
monitor groups pods by `name--namespace`: application `x--y` in namespace `z` and application `x` in
namespace `y--z` share one HealthView, and the first of them is never shown; a pod that
loses the label of the monitor stays in its HealthView, as it was, even after it is deleted (C74). The README of that example
joins on `$.HealthView.spec.serviceName`, a field that its HealthViews do not have; the shipped file joins on
the name. The EndpointSlice operator names an EndpointView after the hash of its content. While an address is in two
slices of its Service, as Kubernetes allows, both make the same view, and when one of the slices goes away the view is
deleted although the other slice still has the address (C75). The operator of the README annotates a
Pod without a list of containers with the number 1, as `@len` of a missing list is one (C77).

**Objects and writes.** Null entries of patches below new maps are stored (C26). Merge
is not associative across kinds and fails for null (C27). Dotted operator names, groups
that end in `view.dcontroller.io` and native groups with dots do not round trip (C28). UIDs
collide across slashes (C44). The updater loses the status of new native objects, never
removes a status, and keeps old labels (C33); as a consequence the views of a chain of
controllers depend on the history of the labels of the outer objects (C63). Native
objects whose sources vanish while the process is down are never removed: the pipeline starts
with an empty memory, and `Sync`, although its comment speaks of the actual target state,
compares with that memory (C64). For the same reason failed writes and foreign changes are not
repaired by periodic reconciliation if the results carry the kind of the target, while other
results are written again each time; objects that should be gone stay in either case (C68). The patcher leaves empty maps, writes
nulls into lists and does not restore replaced values (C34); what somebody writes between
the read and the write of a patch, or of an update of a view, is lost, and an update of a
native object that is deleted in between reports success (C33, C34). Secrets are decoded twice
by retries, and binary values collide (C49).

**View cache.** Updates of views of native kinds are not found; names with slashes share a
place; a renaming patch leaves two objects; an update from 0 to -0 is lost (C29).
Overlapping calls may give duplicate additions, additions after deletions, stale last
events and ghosts (C31). Watches do not tell about objects that leave the selection, and
slow readers lose events (C32). An update replaces the status, too (C50). Subscriptions
through a stopped operator are dead; an operator that stops while an event is delivered
makes another operator get it twice or not at all (C57).

**Discovery and clients.** The REST mapper of views refuses exactly the view groups, and the
composite mapper sends view groups there (C58). Groups list a version once for each kind
(C58). The kind of a resource depends on map order if kinds differ in case only (C58).
`Status()` on a composite client without Kubernetes panics for views, too, and
`Status().Create` is routed by the kind of the sub-resource (C59).
`CompositeCache.WaitForCacheSync` uses a nil cache without Kubernetes, `WithLegacy` drops
the registered views, and `SetCache` with a delegating cache leaves the view client nil.

**Operators and sources.** Adding an operator twice leaks the first; deletion before the start
calls a nil function; a failed update has already stopped the operator; operators added
before the API server is set are never registered; updates have a downtime; start and
addition race (C45). The status reporter has no lock and cuts UTF-8 sequences (C39).
Objects that stop matching a source's selection stay in the pipeline (C46). One-shot
sources are triggered by every object of their kind, and again when another one-shot
source of the kind is made; periods that cannot be parsed become five minutes, and a
period of zero makes the start of the manager fail (C60). The label of the trigger holds a
time with blanks and colons, which the Kubernetes API refuses as a label value (dagger),
so one-shot sources of native kinds fail. A failed pipeline construction leaves watches
with a nil pipeline.

**Status of operators.** An operator with more than 64 controllers that cannot be constructed blocks
the reconciler for all operators: each of them sends an error to a channel of 64 places before
anyone reads from it. After three errors, an error within two seconds of the last one passed on is
not shown until another error comes. A controller never becomes Ready again after an error, as
nothing removes errors. An error that a worker meets before the reconciler has written the first
status may be overwritten by that older status (C69). `OpController.Start` starts the same manager
twice, and the second call fails (dagger): if the background call is the first, the process ends at
once. The status updater closes the error channel when it stops, and a sender may panic.

**API server.** A kind dropped by a re-registration stays served while discovery forgets it;
kinds equal up to case share a resource; a kind beside its list kind panics (dagger); a failed
registration leaves storages; other versions are listed but not served (C40). POST of an existing
name overwrites it; PUT ignores resource versions; dry run, preconditions and
generateName are ignored (dagger); collections report objects that were kept (C53). Labels in
tables come in random order (C54). A patch that removes the namespace writes an object
outside the namespace that was authorized (dagger); kinds with names such as Status or Watch
cannot be reached (dagger) (C55). A registration during the generation of OpenAPI definitions
leaves stale ones in the cache for all later requests; the definitions name the metadata of
lists in two ways, at most one of which Kubernetes knows; names clash for kinds with dots (C66).

**Overlapping calls.** Nothing is locked from the reading of a view to its writing, and there are no
resource versions. Two PATCHes of different fields, or two controllers that patch the same view,
may both succeed and one change is lost; an update brings back an object that was deleted
meanwhile; two deletions of one object may both succeed; an update of an object that is being
deleted may answer with an internal error; the removal of a collection may delete objects that no
longer match the selector (C70).

**Diagrams.** Views of other operators, all but the last writer of a view, and views read under
their full group are not connected; the arrow to a view is drawn once for each reader; Pod of
version v1 is shown as "v1/v1/Pod" (C67).

**Authorization.** An empty rule list means full access (C37). Names do not restrict list, watch
and create; sub-resources are ignored (C35). Blank lists on the command line lift
restrictions; `--rules='[]'` is full access; `get-config` shows tokens that the server
refuses; `generate-keys` writes the private key readable to all, as the two file names are swapped
(C56). Tokens end up to a second early; without an expiry they never end; in HTTP mode
there is no authentication.

## 6. Tests of the theorems

`seeded/LOG.jsonl` lists the wrong programs that the theorems were tried against: each
line names the edited definition, the edit, the claim it breaks and the theorems that no
longer prove. Edits that nothing noticed led to stronger theorems; these are named in
`tightened`.
