# Formal model of machine-controller-manager: design

Source modelled: `/repo` (gardener/machine-controller-manager at the pinned commit), read as text.
Tool: Coq/Rocq 8.16.1, standard library only. Logical name `Verif`, sources in `rocq/theories`.

## Layout

For an area `X`:

* `XModel.v`  - computable Gallina definitions that follow the Go code function by function; each cites file and lines.
* `XSpec.v`   - small specification vocabulary written without the model's helpers (only where needed).
* `XProofs.v` - lemmas.
* `XProps.v`  - only the property theorems (`Cnn_...`), each closed by `exact lemma`, followed by `Print Assumptions`,
  with a concrete `Example` meeting the hypotheses beside it.

Naming: `Cnn_name` proved in full; `Cnn_name_partial` proved in part (the comment says what is missing);
`Cnn_name_refuted` means that the faithful model violates the full statement: the theorem exhibits the violating input or
run, and this is a finding about the code, listed below.

## Modelling conventions

* Go `int`/`int32` are `Z`. Where overflow matters the wrap to 32 bits is written out; elsewhere the simplification is stated.
* Go strings are Coq `string` (lists of bytes).
* Go maps are association lists with the lookup function as meaning; theorems are stated on lookups.
* API server, provider, clock, caches: explicit oracle inputs (arguments) that theorems quantify over; never axioms.
* Goroutines, work queues and stale caches: explicit interleaved steps of a state machine, theorems by induction on runs.
* Pointers that may be nil are `option`. A nil dereference or a blocked channel is an explicit outcome, not a default value.

## Plan per property

| id | model | proof |
|----|-------|-------|
| C01 | `ResolveFenceposts`, `MaxUnavailable`, `MaxSurge` on int-or-percent | arithmetic for all inputs |
| C02 | `NewISNewReplicas`, `reconcileNewMachineSet` over lists of sets | arithmetic; stale status: refutation of the unconditional form |
| C03 | same | arithmetic |
| C04 | `reconcileOldMachineSets` with both scale-down loops | induction over the list of sets |
| C05 | the rollout loop closed with an ideal environment | measure/induction, invariant for every round |
| C06 | `scale`, `GetProportion`, `getMachineSetFraction` with exact rational rounding | induction over the sorted list; refutation of the corner cases |
| C07 | `scale`, `scaleNewMachineSet`, `FindActiveOrLatest`, `IsSaturated` | case analysis for all lists |
| C08 | Recreate as a state machine with machines of each generation starting and stopping | invariant |
| C09 | `sync` for paused deployments | case analysis |
| C10 | revision bookkeeping as a state machine over histories | invariant |
| C11 | `LastRevision`, `rollback` | induction over lists |
| C12 | `cleanupMachineDeployment` | induction |
| C13 | condition list operations | induction; runs of operations |
| C14 | completeness/progress/time-out predicates and `syncRolloutStatus` | case analysis, invariant over runs |
| C15 | `manageReplicas`, `slowStartBatch` | induction; convergence by measure |
| C16 | MachineSet controller with lagging cache | refutation of the full claim; bound for the up-to-date view |
| C17 | `manageReplicas` with freeze | case analysis |
| C18 | `ActiveMachines.Less`, sort, prefix | generic over any sort that returns a sorted permutation |
| C19 | `slowStartBatch` | induction on batches |
| C20 | `ClaimObject`, `ClaimMachines` | case analysis and induction |
| C21 | deletion branches of both reconcilers as a history | invariant |
| C22 | expectations store | induction over event sequences |
| C23 | `checkAndFreezeORUnfreezeMachineSets` | induction over histories |
| C24 | deletion flow as a state machine with optimistic concurrency; real strings and `strings.Contains` | invariant over runs |
| C25 | `drainNode`, `deleteNodeVolAttachments` in the same machine | invariant over runs |
| C26 | creation flow with crash points | invariant over runs; refutation when status is unimplemented |
| C27 | both queues plus orphan collection | refutation by a run; safety of collection for all states |
| C28 | `reconcileMachineHealth` | case analysis over all inputs; refutation for failed machines |
| C29 | workers with permit, lister cache and API | invariant over interleavings |
| C30 | permit giver with atomic map/channel steps | invariant; refutation with the janitor |
| C31 | safety reconcile as a state machine over time | invariant and refutation |
| C32 | the three Sync functions | lookups after sync for all maps |
| C33 | taint utilities | induction over lists |
| C34 | annotation and condition helpers | lookups for all maps; refutation for user-set annotation |
| C35 | `Error`, `FromError`, bracket parser on strings | induction over strings |
| C36 | Levenshtein DP against a recursive specification | induction |
| C37 | `strings.ReplaceAll`, user data | induction over strings |
| C38 | token id | characterisation of collisions, refutation |
| C39 | eviction with message counting | induction over pods and rounds; hang refutation |
| C40 | pod filters | induction |
| C41 | eviction with cancellation | refutation and conditional proof |
| C42 | `filterSharedPVs` | induction |
| C43 | handler as a state machine | invariant over operation sequences |
| C44 | class controller with concurrent edits | invariant, refutation of lost update |
| C45 | `EqualIgnoreHash`, `FindNewMachineSet` | lookups, permutation invariance |
| C46 | validation against rollout | refutation for InPlaceUpdate and negative budgets; proof for the rest |
| C47 | effective-configuration functions | case analysis; refutation for zero retries |
| C48 | worker loop | induction over outcomes |
| C49 | status computation | induction |
| C50 | deletion flow with cooperative oracles | bounded run for all start states |
| C51 | `isScalingEvent`, `sync`, dispatch of the reconcile | case analysis; refutation for Recreate |
| C52 | failed-machine summaries of MachineSet and MachineDeployment status | induction; refutation of stale entries |
| C53, C54 | status write decision; replica failures and requeueing | case analysis |
| C55 | MachineSet controller as a state machine | invariant; refutation for surplus machines |
| C56, C57, C58 | finalizers of parents; selector against template | refutation and conditional proof |
| C59 | both machine queues with objects re-created under one name | invariant for one object; refutation |
| C60 | status parser on foreign texts | induction over strings; refutation |
| C61 | status writes and LastKnownState | case analysis; refutation |
| C62 | tainting of the nodes of old sets | induction over sets and nodes; refutation |
| C63 | priority annotations for machines named for deletion | induction; refutation |
| C65 | secret controller, with the machinery of C44 | invariant; refutation |
| C66 | waiting for re-attachment | induction over events; refutation |
| C67 | order of evictions and waits, match of volumes | induction over pods and attempts; refutation |
| C68 | hash names, collisions, attempts to create a MachineSet | case analysis, induction on attempts; refutation |
| C69 | what the old sets keep in a pass of `rolloutRolling` | induction over the list of sets; refutation for lagging reports |
| C70, C71 | failure conditions of both parents | case analysis; refutation for stale reasons and messages |
| C74-C77 | handlers of watch events as registered, effects as lists | case analysis against independent notions of control and adoption; refutations |
| C78, C80 | handlers of node and machine events as registered | case analysis against independent notions of node, condition and taint; refutations |
| C79 | informer store, notes under way, both machine queues with workers | invariant over all interleavings; refutation for an unseen replacement |
| C81 | the class queue with the keys it is fed | exclusion per key; refutation |
| C64 | node pass over any node list | exact effect without failures; never-done in general; refutation |
| C82 | safety pass over classes and nodes | induction over the classes; refutation |
| C83 | secret data of a class | map merge specified by membership; refutations |
| C84 | ValidateMachineClass | case analysis |
| C85, C86, C87 | what a MachineSet takes over from its deployment; rollback annotations | lookups for all maps, idempotence; refutation |
| C72, C73 | API server, cache and reconcile as a transition system | invariant: equal versions have equal contents; listed pointers; refutation by one refused call |
| C88, C89, C90 | labelling of adopted sets with oracles for cache and API | trace of writes, characterisation of each step; refutation |
| C91, C92, C93 | writes to nodes through the API server with histories of states; autoscaler annotations; termination condition | lemmas per call for all histories; link to the life cycle runs; refutation |
| C94 | traces of the drain of `Drain*`, evictions of one pod before its deletion | proof by induction on rounds; refutation of full respect |
| C95 | calls and answers of a creation in `Life*`, all runs of its world | inversion of the program for all answers; invariant over runs; refutations |
| C96, C97 | status of a MachineSet as read, compute and write steps between which others act; rounds of marking a machine | invariants over all histories (without re-creation for the partial ones); induction on rounds; refutations |
| C98 | the machine object made from a template, its view by claiming (`Own*`), counting (`MSet*`), validation (`Valid*`) and deployments (`Tmpl*`) | lemmas for all templates and selectors; grammar of names; refutations |
| C99 | what the metrics endpoints show of deployments, sets and machines | gauges as a function from series to numbers; lemmas for all lists of objects and all earlier contents; refutations |
| C100 | a rolling update as a whole, with several controllers and outdated caches | world of sets with sizes, machines and available machines; runs of steps; invariants over all runs, a measure that falls; refutations where a reconcile outruns the others |
| C101, C102 | start-up, leader election, caches, health | state machine of one replica and of a fleet; invariants by induction over all event lists; refutations for missing kinds, pods, zero workers and the health flag |
| C103 | one MachineSet with a cache that runs behind, in every execution | state machine over `MSet*` with all former states; invariants relating every former state to the present; tight bound; refutations; liveness from every reachable state |
| C104 | a Recreate rollout in every execution: it ends | state machine of `Recreate*`; invariant (at most one requesting set, its annotation is its size); four stages, each turn leads one further; existence of a way to the end; refutation after a switch of strategy |
| C105 | deleting a whole tree | invariant over executions of all levels; phases with stable facts |
| C106 | writing finalizers with retries | attempts as inputs; induction over attempts |
| C107 | replacement of broken machines, both controllers together | state machine over arbitrary interleavings; invariants; progress by ranks; endless executions for the refutations |
| C108 | scale-down with named machines, both controllers together | state machine over arbitrary interleavings; invariant; counting |
| C109 | passes of the machine queue of `Life*` from every state of a creation, after every history and with failing passes in between | invariant over the world of C24 for all histories; rank function over passes for all answers and all fates of writes; refutations |
| C110 | changes at any moment: scale, roll out, roll back, pause | `todo` (machines to be moved) never grows while the user changes nothing and falls with every helpful reconcile; two successes make every active set know the size |
| C111 | a deployment's life on a cache of MachineSets that lags | a lagging write is a write of the stored object or none; such writes keep order, the template's set and the known size; while the views know the size none of them adds to `todo` |
| C112 | errors of creation and deletion in the status | all calls of all paths of the two flows (predicate on the program), history of calls for the converse, invariant over executions |
| C113 | a machine is looked at again in time | result-carrying programs erased to LifeModel's; queue with a clock, invariants over executions |
| C114 | a deletion without errors is over in time | invariant over timed executions: rank of the stored object with a deadline per rank |
| C115, C116 | the controllers leave their caches alone; no two goroutines use the same memory | memory language with pointers; ownership analysis as a checker, proved sound for all interleavings, run on the programs of both processes |
| C117 | the machine queue of one machine with time (as in `Soon*`), the stored object and a lagging cache (as in `Gone*`) | invariant over timed executions: a stage is done within a bound; rank over stages |
| C118 | the read-update loops around the mark of a MachineSet as a state machine with time, other writers and failing requests | invariants; a measure counting the requests left; refutation |
| C119 | answers of a driver as pairs of a response and an error, put to the two reconciles of `Life*` | every program panics exactly after the bad reply, by structure; invariant over histories; refutations |
| C120 | the flags of the two programs, the settings they write, the parts these go to | one flag per field and name, by computation; induction over the command line; cases over the parts; refutations |
| C121 | the drain with a clock: sleeps, polls, waits and the deadline | bounds by induction over rounds, polls and pods; refutations |

## What is modelled, and what is not

Every definition in a `*Model.v` file (and in `Types.v`, `Sort.v`, `RolloutRun.v`) carries a comment with the lines it stands
for. "No counterpart" marks book-keeping of the model, "external" a library or server that is not in `/repo` and is modelled
by its documented behaviour.

| files | code modelled | left out or simplified |
|-------|---------------|------------------------|
| `Types`, `Sort`, `Rollout*` (C01-C05, C69) | deployment_util.go (fenceposts, surge, new size), deployment_rolling.go 48-291 | int32 sums are unbounded; taints and annotations of nodes are in `Taint*`, `Anno*` |
| `Scale*` (C06, C07, C09, C12) | deployment_sync.go 56-76, 402-604, deployment_util.go 555-699 | float rounding is exact rational rounding; the products are int32 |
| `Recreate*` (C08, C51) | deployment_recreate.go, deployment_sync.go 673-698, deployment.go 518-551 | templates are numbers (their comparison is `Tmpl*`) |
| `Revision*` (C10, C11) | deployment_util.go 249-443, 864-896, deployment_sync.go 120-400, deployment_rollback.go | annotations other than revision and history; addHashKeyToISAndMachines |
| `Status*` (C13, C14, C49, C52-C54, C70, C71) | deployment_progress.go, conditions and counts of both parents, statusUpdateRequired | int32 sums |
| `MSet*` (C15-C19, C55) | machineset.go 333-452, 617-737, order of machines | machine templates; names are numbers |
| `Sync*` (C72, C73) | machineset_util.go 85-204, UpdateMachineWithRetries, with cache and API server | values are numbers; a key is never dropped |
| `Event*` (C74-C77) | machineset.go 77-318, deployment.go 56-345, 379-412, deployment_util.go 67-96, registration in controller.go 108-147 | selectors are predicates |
| `Wake*` (C78-C81) | machinecontroller: machine.go 38-169, 240-290 (queueing), 292-439, machineclass.go 25-38, machine_safety.go 303-331, registration in controller.go 145-192 | lister reads by name fail only for missing objects |
| `Orph*` (C64, C82-C84) | machinecontroller: machine_safety.go 27-48, 154-300, machine_safety_util.go 15-35, machine_util.go 76-186, 222-232 | class and node listers do not fail; conversion of classes does not fail; caches stay synced |
| `Copy*` (C85-C87) | controller: deployment_util.go 234-246, 280-551, 600-620, deployment_sync.go 238-283, 326-328, deployment_rollback.go 114 | nil maps are empty; node template and configuration are texts; progress condition of 267-276 not modelled |
| `Own*` (C20, C21, C56-C58) | controller_ref_manager.go, finalizers, deletion branches | one copy for machines and MachineSets |
| `Exp*` (C22), `Freeze*` (C23) | expectations; pkg/controller/machine_safety.go | counters unbounded; method calls atomic |
| `Codes*` (C35, C60), `Lev*` (C36, C61), `Conf*` (C47) | machine codes and status text; pkg/util/strings; effective settings | bytes for runes; float ratio is exact |
| `Mach`, `Health*` (C28), `Life*` (C24, C25, C59), `Vm*` (C26, C27), `Live*` (C50, C61) | machine.go 136-290, 446-761, machine_util.go 503-1429, machine_safety.go 225-300 for one machine name | retry periods; texts that only go to the log; metrics |
| `Permit*` (C30), `Rate*` (C29), `Queue*` (C48), `Safe*` (C31) | permits.go; rate limit; worker.go; API server check | RegisterPermits and Close are one step each; client-go queue by its documentation |
| `Meta*` (C32), `Taint*` (C33, C62), `Anno*` (C34, C63) | node templates; taints.go, nodeops; annotations.go, conditions.go, node edits of a rollout | metav1.Time as a number; JSON of the record is a pair of functions |
| `User*` (C37, C38), `Fin*` (C44, C65) | userdata.go; machineclass.go, secret.go | random text of a token is an input |
| `Att*` (C43, C66), `Drain*` (C39-C42, C67) | volume_attachment.go; drain.go | log output; deadlines are ends of answer lists; regexp match of volume IDs is a parameter |
| `Tmpl*` (C45, C68), `Valid*` (C46) | template comparison, choice and naming of MachineSets; pkg/apis/machine/validation | hash function is a parameter; matchExpressions |
| `Hash*` (C88-C90) | controller: deployment_sync.go 136-223, machineset_util.go 48-75, deployment_util.go 898-945, machineset.go 848-874, deployment.go 378-410, labels.go 61-72, 116-129 | answers of cache and API are inputs; matchLabels only; the hash is an input |
| `Node*` (C91-C93) | controller: controller_utils.go 900-1023, deployment_rolling.go 70-82, 377-492; nodeops/conditions.go; machinecontroller: machine_util.go 1486-1524, 1630-1638 | a node is its annotations, conditions and the rest; a Get never answers with a conflict; claiming of machines is an input |
| `Budget*` | no new code: statements on evictions, deletions and budgets over the traces of `DrainModel.v` | the rate at which attempts are made |
| `Crea*` | no new code: statements on the creation flow and the statuses of `LifeModel.v` | as in `Life*` |
| `Put*` (C96, C97) | controller: deployment_machineset_util.go 39-90, machineset.go 452-587 (only reading and writing the status), 665-711 (the mark), 795-844 | the status computation is `StatusModel.v`'s; what others write is an input; reads answer with the state of that moment |
| `Make*` (C98) | controller: controller_utils.go 453-470, 497-599, machineset.go 376-409; selectors with expressions; names generated by the API server | events; the call itself (its verdict is an input) |
| `Metr*` (C99) | controller: metrics.go; machinecontroller: metrics.go; label declarations of both metrics packages; machineset.go 687-691 | float rounding; the HTTP side and the registry of prometheus |
| `Whole*` (C100) | deployment_rolling.go 48-291 on cached objects (`RolloutModel`), the optimistic lock of the update at deployment_sync.go 545-565, machineset.go 333-452 and 457-587 in numbers | which machines a set deletes beyond "unavailable first"; scaling and rollback during the rollout (C06-C09); a machine set created or adopted on the way |
| `Start*` (C101, C102) | controllermanager.go 76-199, 202-285, 292-341, 364, app.go 74-196, 199-302, 307-356, 385, controller.go 194-231, machinecontroller/controller.go 195-207, 272-323, cache.go 26-44, k8sutils/helper.go 24-62, handlers/health.go | kubeconfigs and clients (taken to be built), the protocol of the leader election (a lock), informers (a set of filled caches), profiling endpoints |
| `Lag*` (C103) | `machineset.go` 333-452, 457-587 on top of `MSet*`: all executions of one set whose cache shows any former state in any order, with outside phase changes, marks and deletions | the other informers; several sets; adoption and release (`Own*`); the retry inside updateMachineStatus (795-822); reads of the set itself are live as in the code |
| `Recr*` (C104) | nothing new: the executions of `Recreate*` | a cache that runs behind; the paused flag and rollback requests; negative history limits (the clean-up panics) |
| `Casc*` (C105) | deployment, sets, machines, VMs and finalizers, with the passes of `OwnModel` at both upper levels, over current views | the passes over machines in full (`LifeModel`), lagging views (C21, C103), relabelling, Kubernetes' garbage collector |
| `Fupd*` (C106) | deployment.go 575-613, machineset.go 739-793, machine_util.go 820-870 with a versioned API server that refuses new finalizers on objects being deleted | logging; the growth of the stack in the endless case |
| `Heal*` (C107) | machine_util.go 618-806 and 1526-1602, machineset.go 333-452 and 665-711 in one world with nodes, VMs and time | one set per deployment; the deletion flow is three steps; the waiting for a permit is one answer; writes on outdated copies are refused by the API server |
| `Pick*` (C108) | deployment.go 518-540 and 615-671, deployment_sync.go 402-421, machineset.go 333-452 in one world | one set (the rolling update case is computed with `ScaleModel`); the deployment's view of the machines is current; names are numbers |
| `Join*` (C109) | sequences of passes of reconcileClusterMachine with stored, failing and lost writes after any history (machine.go 171-238, 446-697; machine_util.go 618-806) | writes of others in the middle of the final passes (before and between them they are covered, and so are passes over an outdated view) |
| `Wish*` (C110) | the choice among paused / rollback / scaling / rollout at each reconcile, creation of the template's set, changes by the user, work and reports of the sets, clean-up of empty sets, failing calls | views of the deployment controller that lag behind (`Late*`), hash collisions (`Hash*`), the lookup of revisions (`Rev*`), Recreate (`Recr*`) |
| `Late*` (C111) | reconciles on any mix of past versions of the sets: which writes are accepted, skipped or end the reconcile, AlreadyExists and the second look into the cache, rollback from a cached template | a wanted size of zero in between; versions with equal contents are taken for the same; hash collisions (`Hash*`), Recreate (`Recr*`) |
| `Tell*` (C112) | no new code: statements on both flows of `LifeModel.v` | as in `Life*` |
| `Soon*` (C113) | the retry periods and errors returned on every path of reconcileClusterMachine, reconcileClusterMachineTermination and what they call; worker's retry of failed keys; AddAfter, AddRateLimited and Add for one key, with time in milliseconds | client-go's rate limiter (its delay is any number), the order of keys in the queue, several workers competing for keys (waiting times are hypotheses), restarts |
| `Gone*` (C114) | the termination queue of SoonModel with the stored object, optimistic locking, and a cache that may show any version within a delay | other writers of the machine object; writes that the API server fails or answers late; restarts |
| `Mem*` (C115, C116) | the reads, writes and pointers of every reconcile function, event handler and metrics collector of both processes, for any number of workers in any interleaving | values and conditions (every branch may be taken); the provider's driver, which is taken to read only; goroutines started inside a reconcile, which run one after the other; reads made with the lock held; the expectations and the stale-machine counter of the manager (they have locks of their own); kinds of cached objects (a lister may return any cached cell) |
| `Come*` (C117) | creation by the machine queue against an API server, with lag, delays and time (machine.go 38-54, 136-238, 446-697; machine_util.go 545-575, 618-844) | other writers, failing writes and deletions in between |
| `Mark*` (C118) | the loops over reading and updating MachineSets (deployment_rolling.go 294-375, deployment_rollback.go 144-230) | tainting the nodes (`Taint*`), claiming machines (`Own*`); cancellation of the context |
| `Drv*` (C119) | where the machine controller follows the pointer to a response of the driver (machine.go 468-581, 662-696, machine_util.go 503-543, 1311-1347, 1733-1736, machine_safety.go 236-249, 283-292, drain.go 1013-1022) | panics inside the driver; a panic in one goroutine ends the process, which the model of one machine name shows as the loss of its two reconciles |
| `Flag*` (C120) | flags and defaults (cmd/machine-controller-manager/app/options/options.go 48-112, pkg/util/provider/app/options/options.go 49-127, leaderelectionconfig/config.go 33-78), where the settings are read (controllermanager.go 76-285 and 351-372, app.go 73-302 and 366-393, and the lines at each case of `used`) | pflag itself: how a value is read is a parameter, names are taken after its normalisation; logging flags; what the parts do with a setting (`Conf*`, `Freeze*`, `Start*` and others) |
| `Clock*` (C121) | drain.go 143-155, 218-246, 470-476, 490-526, 628-665, 692-821, 861-922, 937-986, 1025-1121 with a clock in whole seconds, and the limits that drainNode hands over (machine_util.go 1065-1068, 1093-1123, 1157-1171) drain after drain; answers are functions of the time | calls take no time and fail once the context is done (as client-go promises); the sleeps after a failed lister read (848, 999) are left out since a cache only fails with "not found"; what is sent is in `Drain*`; getGlobalTimeoutForPodsWithoutPV (478-488) is used nowhere |

Not modelled at all: command line and start-up (`cmd/`, `pkg/util/provider/app`), client builders, leader election, the metrics of API calls, generated
clients, the fake driver and the test helpers.

## Findings

Each `_refuted` theorem is a run or an input on which the code, as modelled, does not do what the property says. The comment above
each theorem says what happens and where. In short:

* **Rolling updates.** The reconcile that creates the new set exceeds the surge (`C02_surge_limit_refuted`). A lagging report beside an
  unhealthy set breaks the availability floor (`C04_availability_floor_refuted`, `C69_*_refuted`). A paused rollout still grows the newest set
  (`C09_pause_freezes_refuted`).
* **Scaling.** Shares of one half all round up, stale records make a set grow while scaling down, int32 products overflow
  (`C06_*_refuted`); the newest set may get more than the replicas (`C07_scale_up_refuted`); a negative history limit panics
  (`C12_negative_limit_refuted`).
* **Recreate.** Switching back to an old template overlaps (`C08_recreate_no_overlap_refuted`); two requesting sets are stuck for ever
  (`C51_recreate_stuck_refuted`).
* **Revisions and templates.** Unreadable revisions are never repaired (`C10_*_refuted`). A label with an empty value has no effect, undoing
  an added label is skipped, the comparison is not symmetric (`C45_*_refuted`). On a name collision an old set may be used as the new
  one, or nothing is counted (`C68_*_refuted`).
* **Status.** Duplicate conditions stay, transition times move (`C13_*_refuted`); completeness is sticky and a second creation does not renew
  the deadline (`C14_*_refuted`); old summaries and foreign owners (`C52_*_refuted`). Failure conditions keep the reason or message of
  an earlier failure (`C70_*_refuted`, `C71_*_refuted`).
* **MachineSets.** With a lagging cache machines are created twice, for the expectation gate is commented out
  (`C16_lagging_view_refuted`, `C22_ungated_refuted`). A surplus machine whose delete call failed is forgotten
  (`C55_lost_deletion_refuted`). Phases of in-place updates are not ranked (`C18_unlisted_phase_refuted`).
* **Ownership.** Release never releases and adoption overwrites, because the patches are JSON merge patches (`C20_*_refuted`). Parents go
  before their children in several ways (`C21_*_refuted`). Empty selectors block deletion (`C56_empty_selector_refuted`), stale finalizer
  lists overwrite edits (`C57_lost_edit_refuted`, `C44_*_refuted`), a selector with an empty value creates machines without end
  (`C58_runaway_refuted`).
* **Freezing.** The overshoot check crashes on Recreate deployments, stops at an unreadable surge, alternates without a gap, and unfreezes on
  lookup errors (`C23_*_refuted`). An unfreeze request on a deployment is lost if a call fails between taking off its annotation and
  passing it to the sets (`C23_request_lost_refuted`). The API server freeze counts separate outages as one, lets running reconciles write, resets
  Terminating machines, and can stay for ever (`C31_*_refuted`).
* **Machine life cycle.** A machine re-created under the same name is terminated, loses its finalizer, or crashes the controller
  (`C24_name_reused_refuted`, `C59_*_refuted`); the VM that the creation queue makes for it meanwhile is deleted undrained (`C25_recreated_refuted`). Two VMs for a machine if the driver lacks the status call (`C26_*_refuted`). Orphan collection
  takes the VM of a Failed machine (`C27_*_refuted`). Failed and Terminating machines come back to Running
  (`C28_brought_back_refuted`). Similar statuses are not written, which delays deletion and loses the state of the VM
  (`C50_waits_refuted`, `C61_*_refuted`).
* **Rate limit without the label (C29).** The limit counts machines by the label "name" (machine_util.go 1558, 1708), which no
  controller sets and which the sample `kubernetes/machine_objects/machine-deployment.yaml` does not have. Machines without it are
  never counted, so all unhealthy machines of such a MachineDeployment are replaced at once (`C29_no_label_refuted`,
  `C29_no_label_no_limit`); MachineDeployments with equal labels share one limit (`C29_shared_label_refuted`). Found by running
  the repository's meltdown tests on the model, which until then read a missing label as an empty one.
* **Rate limit.** Two unhealthy machines are replaced at once with a slow cache, a lost answer or a cleaned permit (`C29_*_refuted`); permits
  are invalidated under their holders, closing panics, and two DeletePermits of one key at a time close its channel twice, which panics too (`C30_*_refuted`).
* **Nodes.** Template taints with a time are written for ever, a bad record blocks the sync, unrecorded keys stay (`C32_*_refuted`). Taint
  texts panic the parser, conflicts are not retried, stale reads count as success (`C33_*_refuted`). Marked sets with untainted nodes
  (`C62_*_refuted`). A user's scale-down annotation is lost (`C34_*_refuted`). A machine of another deployment gets priority 1
  (`C63_foreign_machine_refuted`).
* **Events.** The handler that wakes a Recreate deployment after its last machine is not registered; the one registered in its place
  drops machines (`C76_*_refuted`). A failed read of the owner loses the event of a MachineSet (`C75_*_refuted`). One invalid selector
  stops adoption in the whole namespace, and an owner change reported with a deletion is missed (`C74_*_refuted`). A machine first
  seen while being deleted leaves the creation expectation open (`C77_*_refuted`).
* **Machine controller events.** A deletion learned from a list (tombstone) panics in `deleteMachineToSafety` and does not queue the class
  (`C80_*_refuted`). Two machines with one node label are woken by no event of the node; an annotation to delete that was set while the
  controller was down waits for the next change of the node (`C78_*_refuted`). A machine replaced unseen by one of equal generation never
  enters the machine queue (`C79_replaced_refuted`). A class has two keys, so two workers may reconcile it at once (`C81_class_twice_refuted`).
* **Safety pass and class data.** A class whose VMs cannot be listed keeps orphans of all classes after it from being
  collected (`C82_blocked_refuted`), a node whose update fails keeps the nodes after it from being marked (`C64_blocked_refuted`). A secret
  that is not found counts as empty, so the provider is called without credentials (`C83_missing_refuted`); any other lookup error panics,
  as the log call at machine_util.go 130 reads the nil secret that shadows the reference (`C83_panic_refuted`).
* **Settings of MachineSets.** A set whose revision annotation is not a number never gets a changed node template; annotations with empty
  values and removals are not passed on (`C85_follows_refuted`). A pass that
  copies several settings writes the current revision into the history up to three times
  (`C86_history_refuted`). A rollback drops the deployment's pending list of machines to delete first
  and may bring an old list back (`C87_requests_refuted`).
* **Adoption of MachineSets.** Failed machines, and machines the set selects but the deployment does not, are not labelled before the
  selector is narrowed, so the set loses them (`C88_orphans_refuted`). A set without selector that carries the labels of a deployment,
  or a set deleted while its machines are labelled, crashes the controller (`C89_crash_refuted`). A set that does not reach its replicas
  stops the reconcile of the whole deployment after a minute of waiting, every time (`C90_blocked_refuted`).
* **Node writes are never retried.** Annotations, conditions and taints of nodes are written within a retry on conflicts, but the
  conflict is put into a new error with `%v`, which the retry does not recognise (`C91_never_retried_refuted`). As the first read
  may be stale, one lagging cache fails the whole call (`C91_stale_read_refuted`) or makes it report success wrongly
  (`C91_stale_success_refuted`). Nothing of others is lost, though (`C91_annotate`, `C91_deannotate`, `C91_condition`).
* **Autoscaler during rollouts.** An old set counts as scaled to zero as soon as one of five numbers is zero, so nodes are not
  protected while old machines are still there (`C92_gap_refuted`). Failed annotations are ignored (`C92_unprotected_refuted`); one
  node that cannot be cleaned keeps the annotations on the ones after it and holds up the rest of the reconcile
  (`C92_clean_up_blocked_refuted`).
* **Cause of a termination.** Nodes of failed machines are announced as scaled down, never as unhealthy: the phase is Terminating by
  the time the condition is written (`C93_unhealthy_refuted`). A node that vanishes between read and write is an error
  (`C93_vanished_refuted`).
* **Budgets are only a matter of patience.** After the retries are used up a drain that is not forced deletes the pod although its budget
  never allowed it; for pods with claims any failed call counts as a refusal, so that a few failures of the API server are enough
  (`C94_deleted_refuted`).
* **Creation.** With a driver that cannot report the VM, a recorded provider ID is overwritten with nothing when only the priority annotation is
  missing (`C95_id_lost_refuted`). A failed initialization of the VM is not repeated unless the driver keeps reporting it
  (`C95_uninitialized_refuted`). A machine becomes Pending though the provider says that its VM is gone (`C95_vm_gone_refuted`).
* **MachineSet status.** A set that is deleted and re-created under its name during a reconcile gets the status of its predecessor, with an
  observed generation it never had (`C96_recreated_refuted`), because the second try reads by name and does not compare UIDs. A `Frozen` condition
  that the safety controller writes between read and write is overwritten (`C96_condition_lost_refuted`).
* **Mark on a deleted machine.** While writes fail the marking calls itself without bound or pause (`C97_endless_refuted`); it reads by name and
  does not look at the UID or at a deletion already under way, so a re-created machine is marked as Terminating, and the recorded progress of a
  deletion is set back to the first step (`C97_wrong_machine_refuted`).
* **Making machines.** Validation does not look at the expressions of a selector: if the template does not satisfy them no machine is ever
  claimed and each reconcile makes new ones (`C98_runaway_refuted`). A template may carry the annotations that ask for deletion; its
  machines are deleted and made again without end (`C98_deleted_at_once_refuted`). A template may name a node and a VM, and then all machines
  of the set claim to be these (`C98_preset_refuted`). Sets whose names agree in 58 characters share machine names (`C98_long_names_refuted`).
- Metrics (C99). The gauge of a MachineSet's replicas shows its ready replicas (`C99_replicas_refuted`, metrics.go 118). A rolling-update
  deployment that leaves out maxSurge or maxUnavailable makes every scrape panic (`C99_crash_refuted`, metrics.go 260-263). Percentages
  are shown as 0 (`C99_percent_refuted`). No series is ever taken away: deleted sets, recovered machines and old provider IDs stay on show
  until the process ends (`C99_stale_series_refuted`). Machines available or updated in place are shown as pending (`C99_phase_refuted`).
* **Executions of a rolling update (C100).** With any caches and failures the new set only moves towards the wanted number and the old
  ones only shrink (`C100_bounds`). The surge is kept only if a reconcile never comes before the machines requested last exist: two
  reconciles in a row overshoot (`C100_machines_refuted`, deployment_util.go 1089-1104 counts status.replicas). The floor of available
  machines is kept only if statuses are true and carried out: an outdated status gives up all available machines
  (`C100_floor_refuted`), and available machines that a shrunk set is yet to delete are counted as kept (`C100_floor_lag_refuted`);
  nothing in rolloutRolling looks at status.observedGeneration of the sets.
* **Start-up (C101, C102).** The manager refuses to start only if *all three* of its kinds are missing; with one
  missing (or, for the controller of machines, with MachineClasses missing) it waits for ever for a cache that cannot be filled, and
  since the stop channel is nil nothing gives up or sets `/healthz` back: it answers OK for ever
  (`C101_kinds_refuted`, `C102_ok_refuted`). The manager also waits for the nodes of the target cluster, which none of its
  reconciles reads: while the target cannot be reached no set is scaled (`C102_stuck`). Pods are not waited for (the drain does it), nor disruption
  budgets before 1.21. `--concurrent-syncs` is not validated: 0 gives a healthy program without workers
  (`C101_no_workers_refuted`). Whether volume attachments are followed is asked once; a failed call at that moment
  counts as "no" until the next start (`C102_attachments_refuted`).
* **Scaling down can delete too many machines (C103).** The gate on recorded expectations is commented out (machineset.go 541-542), so a second reconcile may run before the cache shows the deletions of the first. getMachinesToDelete sorts what the lister gives; a lister gives its objects in no particular order and creation times are whole seconds, so equal machines are common, and the second reconcile may choose other machines than the first: a set of two scaled to one can end with none (C103_order_refuted). A phase change between the two does the same (C103_phase_refuted). Over-creation likewise multiplies with the number of reconciles per cache update (C103_over_refuted, met for every k).
* **A machine somebody deleted still counts (C103).** manageReplicas looks at the phase only, not at the deletion timestamp, so until the machine controller has written Terminating a scale-down chooses another machine in addition (C103_under_case).
* **A rolling update switched to Recreate can be stuck for ever (C104).** If an old and the new set both request machines when the strategy becomes Recreate and the size is changed too, every reconcile is a scaling event (deployment_sync.go 673-698), scale does nothing for several requesting sets unless the strategy is RollingUpdate (433), and rolloutRecreate is never reached (deployment.go 532-548). C104_switched_refuted shows that no execution ends the rollout.
* **A deployment whose finalizer could not be written leaves its VMs behind (C105).** The error of adding the finalizer is ignored (deployment.go 462-465, 601-603) and the pass goes on to make a MachineSet. If the deployment is deleted before a later pass adds the finalizer, it is gone at once; its set, the machines and the VMs stay, and no pass of these controllers changes that. Only the garbage collector of Kubernetes (external) would then ask for the deletion of the set.
* **Writing a deployment's finalizer can go on for ever (C106).** `updateMachineDeploymentFinalizers` calls itself after every failed Update, without limit or pause (deployment.go 608-612). Some refusals are permanent: a deployment that has just been deleted and is kept by somebody else's finalizer (for instance one of the garbage collector in a foreground deletion) takes no new finalizer, and a removal computed from a view that still shows a finalizer removed meanwhile would bring that one back. In both cases the worker calls the API server in a tight loop, its stack growing, until the object is gone (`C106_endless_add_refuted`, `C106_endless_remove_refuted`); a machine set gets an error after two attempts. A failing read, on the other hand, ends the call without error (`C106_silent_refuted`).
* **One failed delete call blocks the replacement of all broken machines of a deployment (C107, C55).** `prepareMachineForDeletion` (machineset.go 679-708) writes the phase Terminating even when its delete call failed. A broken machine is then no longer Failed, so no later pass asks for its deletion: the machine and its VM stay. Since `canMarkMachineFailed` (machine_util.go 1554-1602) counts every machine in a phase other than Running and Unknown as a replacement in progress and allows one, no other machine of the deployment is marked Failed any more, however long its node is broken (`C107_blocked_refuted`, `C55_failed_forgotten_refuted`). Only a recovery of that node, or a user, ends this.
* **Conditions that keep changing hold off the health timeout (C107).** Whenever the conditions of a node differ from the recorded ones, `reconcileMachineHealth` records them and does not look at the timeout (machine_util.go 658-670, 723). A node that is never Ready but whose other conditions change between any two passes stays Unknown for ever (`C107_flapping_refuted`).
* **Sound machines can be deleted (C107).** A MachineSet controller whose view still shows a machine as Failed deletes it after it has recovered (`C107_recovered_refuted`); and a failed machine whose delete call failed is replaced, recovers, and makes a sound machine surplus (`C107_sound_deleted_refuted`). A pass that finds the node sound but whose write fails leaves the time of the first failure in place, so the machine may be marked Failed without having been broken for the whole timeout (`C107_lost_write_refuted`).
* **A scale-down that names its machines can take others (C108).** The autoscaler names machines and lowers the size in one update, but marks and size travel on different objects. A MachineSet controller whose machine cache lags behind its set cache sees the lower size first and gives up the oldest machine; then it sees the mark, deletes the named one too and makes a replacement (`C108_late_marks_refuted`). If the write of the size fails while the mark went through, the named machine is replaced at once, and when the size arrives after the replacement is Running, the oldest machine goes (`C108_late_size_refuted`). And during a rolling update the size is taken from the sets in proportion, the largest first, wherever the named machine is: the new set loses a sound machine while the old set deletes the named one and makes another old one (`C108_rollout_refuted`). In each case a node with load may be drained although the autoscaler chose an empty one.
* **A machine without node name is forgotten (C109).** If the driver returns an empty node name, the machine becomes Pending with an empty node label; the health check needs a node name (machine.go 207) and creation needs a missing ID or phase (machine.go 225), so no pass looks at it again: it is never Running and never Failed (`C109_no_node_name_refuted`).
* **A VM that stays uninitialized has no deadline (C109).** As long as GetMachineStatus answers Uninitialized and InitializeMachine succeeds or is not implemented, the machine stays without phase, although its node may be ready and the creation timeout over (`C109_uninitialized_refuted`).
* **Creation that fails before the driver is called has no deadline (C109).** An error from the secrets or the bootstrap token is returned without a status (machine.go 457-466): the machine shows no failure and is never Failed (`C109_no_deadline_refuted`).
* **A total of zero makes a share infinite (C110).** With a surge in percent, a wanted size of zero allows zero machines in all, and that zero is written to the sets as their max-replicas annotation. If template and size are changed together and one update of the scale-down fails, sets that still request machines carry it; the next change of the size divides by it and converts infinity to int32 (deployment_util.go 695, C110_undefined_share_refuted). The comment there says this never happens. Go leaves the result to the processor; one that saturates makes the set ask for 2147483647 machines. As long as at least one machine is always asked for this cannot happen (C110_defined_partial).
* **A rollback starts machines of the template it leaves (C110).** rollback first makes sure that the present template has a set (deployment_rollback.go 38), creating one with machines if there is none; a quick revert of a mistaken template therefore starts machines of the mistaken one, which the next reconciles take away (C110_rollback_creates_refuted).
* **After a restart on an old cache a finished deployment loses machines (C111).** scale computes the shares from the cached sizes of all sets, but the API server checks only the set that is written. With a cache from one earlier moment - a restarted controller, or a new leader, that is served a list from a lagging watch cache - a set that did not change since is resized although the others did: a deployment of 6 that is complete is shrunk to 4 (deployment_sync.go 441-477, C111_back_refuted). The later reconciles mend it, by deleting good machines and making new ones. A cache that only moves forward cannot do this (C111_forward_partial).
* **Errors that the status does not show (C112).** An invalid or missing machine class, a missing secret, a failing synchronisation with the node, volume attachments that cannot be listed or deleted, and (in the creation) errors of GetMachineStatus or InitializeMachine without a readable code end the reconcile with nothing but a log line (`C112_silent`, `C112_silent_refuted`, `C112_unreadable_refuted`). In the deletion, errors Unknown, DeadlineExceeded, Aborted and Unavailable of GetMachineStatus are shown as a problem with "decoding machine error status", without their text (`C112_text_dropped_refuted`). Within half an hour a different error is not shown if it is short against the words around it (`C112_hidden_refuted`). That the VM made for an existing node could not be deleted is shown nowhere (`C112_leftover_refuted`).
* **Retry periods of a deletion are not kept (C113).** `reconcileClusterMachineTermination` adds the key after the retry period and also returns the error (machine.go 265-267, 281-283), and the worker then adds the key with the rate limiter (worker.go 52-56); the earlier time wins. An error of DeleteMachine that is called permanent ("Aborting operation", 10 minutes) is followed by the next call after 5 ms, and 16 calls are made in less than three minutes (`C113_hold_refuted`). All stages of a deletion return an error, so the periods there have an effect only after the sixteenth failure in a row. The machine queue keeps its periods (`C113_kept`).
* **A short freeze delays the timeout by up to ten minutes (C113).** A reconcile that finds the controller frozen sets the next look ten minutes away (machine.go 175-181), and the end of the freeze wakes nobody; a machine whose timeout passes meanwhile is not marked as failed until then (`C113_frozen_refuted`), though otherwise this takes about a minute (`C113_failed_in_time`).
* **Comments about the periods (C113).** ShortRetry is 5 s where the comment says 15 s, MediumRetry 3 minutes where it says 2 (machineutils/utils.go 88-91).
* **A write of the node label costs a reconcile (C114).** When the deletion finds the node's name, `updateMachineNodeLabel` stores the label and the status update that follows is based on the object as it was before, so it is always rejected as a conflict and the stage is repeated (machine_util.go 967-971, 1015-1035, 1711-1725). So the deletion takes one stage more (`C114_label_first`, counted in `C114_over_in_time`).
* **Three writes into the cache (C115, C116).** `syncMachinesNodeTemplates`, `syncMachinesConfig` and `syncMachinesClassKind` assign to the machines of the informer cache (machineset_util.go:145, 190, 199): `claimMachines` returns the pointers of the lister. `C115_manager_refuted` has a run in which a cached machine changes, `C116_manager_refuted` one in which an event handler reads it at that moment (a data race in the sense of Go's memory model). The configuration assigned is a pointer into the MachineSet just fetched. Everything else in the manager is shown to keep off the caches (`C115_manager_cache`, `C115_manager_fields`, `C116_manager_race`).
* **The frozen flag is not synchronized (C116).** `reconcileClusterMachineSafetyAPIServer` writes `safetyOptions.MachineControllerFrozen` and `APIserverInactiveStartTime` (machine_safety.go:103-104, 113, 117); the machine workers and the metrics collector read the flag (machine.go:175, metrics.go:53), without a lock or an atomic. `C116_frozen_refuted`. It is the only record of the machine controller written without a lock (`C116_machine_race`).
* **The list of attachment workers is read without its lock (C116).** `dispatch` tests `len(v.workers)`, `AddWorker` and `DeleteWorker` log the list before taking the mutex (volume_attachment.go:31, 78, 92), while other drains append to it with the mutex held. `C116_attachment_refuted`.
* **A node that comes late finds its machine Failed for up to ten minutes (C117).** If the creation timeout ends before the node is in order, the machine is set to Failed, and from then on it is looked at only every ten minutes (LongRetry). A machine whose node came a moment later stays Failed all that time, and its machine set will delete it (`C117_too_late`).
* **The retry loops around the taint mark retry nothing (C118).** Both loops assign the result of the failed request to the variable they take the name for the next attempt from (`machineSet, err = …Get(ctx, machineSet.Name)`, deployment_rolling.go 340, deployment_rollback.go 195; `machineSet, err = …Update`, 211). The typed client returns an empty object with an error, so the next attempt asks for the name "" and fails without a request, every five seconds until the minute is over. One failed read, and when the mark is removed one conflict, makes the worker wait a minute and give up (`C118_one_failure_refuted`, `C118_one_conflict_refuted`). A rollback goes on after that: the nodes have lost their taint, but the MachineSet keeps its mark, so they are not tainted again when it is replaced the next time (deployment_rolling.go 297-300).
* **Some answers of a driver crash the machine controller, again and again (C119).** After a call without an error the controller follows the pointer to the response of GetMachineStatus, CreateMachine and InitializeMachine (there only for a log line, machine.go 695), ListMachines and GetVolumeIDs; and after the error Uninitialized of GetMachineStatus as well (machine.go 569), although `driver.go` says nothing of a response in that case. A driver that returns `nil, status.Error(codes.Uninitialized, …)` takes the process down (`C119_answers_refuted`), and after every restart again, with nothing written to the machine (`C119_crash_loop_refuted`). Every other combination is safe: `C119_machine_queue` and `C119_termination_queue` say exactly which answers crash.
* **Four flags do nothing, and no value is checked (C120).** `--cloud-provider`, `--kube-api-content-type`, `--controller-start-interval` and `--machine-inplace-update-timeout` are accepted and read nowhere (`C120_idle_exactly`). `Validate` checks nothing (options.go 108-112, 123-127): with `--concurrent-syncs=0` no queue gets a worker while the program stays up; with `--safety-up=0` a deployment with `maxSurge: 0` is frozen as soon as it has its wanted size, so that a machine lost afterwards is only replaced once the check has run again with fewer machines; with a negative `--safety-down` the check freezes and unfreezes in turn. The help text of `--min-resync-period` promises a random period between one and two times the value; the value itself is used (app.go 245-259).
* **With the default settings no pod is ever deleted by force in a normal drain (C121).** `--machine-max-evict-retries` is "the maximum number of times evicts would be attempted on a pod before it is forcibly deleted". drainNode caps the retries at the time-out divided by 20 seconds (machine_util.go 1065), and both defaults give 360 retries of 20 seconds in two hours: when the retries are used up the deadline has passed, the deletion fails with the error of the context, and for pods with volumes it is not tried (`C121_forcing_refuted`; in general `C121_never_forced`). The pods are only deleted by the forced drain of a later pass. Fewer retries than fit do lead to the deletion (`C121_deleted_after_retries`). A drain outlasts its time-out by up to 24 seconds, because the sleeps of 20 and 5 seconds do not look at the context (`C121_outlasts_refuted`), and by no more (`C121_ends`). `--machine-drain-timeout` is the time "beyond which MCM forcefully deletes machine", but each drain gets it anew (machine_util.go 1068, 1160): a drain that begins just before the time-out after the deletion goes on for another whole time-out (`C121_counted_anew_refuted`, at most so by `C121_normal_drains`).
* **Template copies.** The copy is made in the cached machine before the API call; if the call is refused, the next reconcile finds
  nothing to do and the machine keeps its old node template, configuration or class kind (`C72_*_refuted`).
* **Codes.** Brackets in messages lose the code, foreign texts gain one (`C35_*_refuted`, `C60_foreign_error_refuted`).
* **User data.** Both spellings of a placeholder: only one is replaced; short names panic (`C37_*`); tokens are shared between machines whose
  names differ in the last two bytes only (`C38_*_refuted`). Secrets of credentials-only classes are not queued, and namespaces are
  ignored (`C65_*_refuted`).
* **Drain.** Without effective retries (also: a drain timeout under 20 seconds, `C47_no_attempt_refuted`) the drain hangs for ever
  (`C39_hang_refuted`). Pods are evicted by name on another node (`C40_other_node_refuted`). Time-out, a vanished node, a failed read and a failed
  cordon count as success (`C41_*_refuted`). Volumes mounted twice are not waited for, those shared with DaemonSets are (`C42_*_refuted`);
  volume IDs are matched as patterns (`C67_pattern_refuted`). The 21st unread event is lost and an inline volume panics
  (`C43_*_refuted`, `C66_unnoticed_refuted`).
* **Validation.** In-place updates and negative budgets are accepted and never roll out; a nil selector panics (`C46_*_refuted`).

## The repository's own tests, run on the model

The `Fit*` files transcribe the tables of the unit tests in `/repo` as examples about the models: same inputs, same expected results. The
tests cannot be run here; assuming they pass, an example that failed would be a difference between model and code. All hold; no
claim rests on them.

| File | Tests | Models |
|---|---|---|
| `FitSets` | sort order, active sets, manageReplicas, slowStartBatch, machines to delete, `scale` | `MSet`, `Scale`, `Sort` |
| `FitUtil` | annotations, taint flag, permits, deployment validation | `Anno`, `Taint`, `Permit`, `Valid` |
| `FitNodes` | annotations and taints on nodes in rollouts and rollbacks | `Node` |
| `FitEvents` | event handlers of MachineSets and MachineDeployments, adoption | `Event`, `Own` |
| `FitDeploy` | a whole reconcile of a MachineDeployment, node templates of sets | `Rollout`, `Recreate`, `Scale`, `Revision`, `Pick`, `Tmpl` |
| `FitSafety` | API-server freeze, orphans, node marks, class checks, finalizers, user data | `Safe`, `Wake`, `Orph`, `Fin`, `User` |
| `FitHealth` | node templates, similar statuses, health check, meltdown | `Meta`, `Lev`, `Health`, `Rate` |
| `FitLife` | creation and deletion flow | `Life` |
| `FitDrain` | drains with and without evictions, volumes of pods | `Drain`, `Att` |

One of the repository's tests writes down a finding of ours as expected: the rolling update of deployment_test.go 1722-1748 has 5 old and 2 new
replicas for 5 wanted and a surge of 1 (`C02_surge_limit_refuted`).

## Testing the theorems against wrong programs

`seeded/LOG.jsonl` has one line per attempt: a definition of the model was changed in a scratch copy as a programmer might get it wrong, and the
theorems that no longer go through are listed. Where all of them still went through although the claim was false, the theorem was
tightened and the line says so.

## Trusted base

* Coq's kernel (8.16.1); `coqchk` re-checks the compiled files.
* The reading of the Go source by which the model was written, and the documented behaviour of what is marked external.
* `Print Assumptions` stands beneath every property theorem. All of them are "Closed under the global context": no axiom is used. (`coqchk` lists the
  seven declarations of `Coq.ssr.ssrunder.Under_rel`, which belong to the standard library and are loaded, not used.)
