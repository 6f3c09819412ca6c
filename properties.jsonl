{"id": "C01", "title": "Rollout budget is never zero", "statement": "For every rolling-update MachineDeployment whose maxSurge and maxUnavailable are non-negative numbers or percentages, the resolved budget (surge rounded up, unavailable rounded down, unavailable capped at the replica count) is never surge=0 and unavailable=0 at once, so a rollout always has room to move; both resolved numbers are monotone in the configured value and never negative.", "quantifier": "all replica counts and all int-or-percent values of maxSurge and maxUnavailable", "why_tests_cant": "A table of percent/replica pairs cannot cover the rounding boundary of every pair.", "anchors": ["pkg/controller/deployment_util.go:MaxUnavailable", "pkg/controller/deployment_util.go:MaxSurge", "pkg/controller/deployment_util.go:ResolveFenceposts"]}
{"id": "C02", "title": "Surge limit", "statement": "One reconcile of a rolling-update MachineDeployment never raises the sum of the replicas requested by its MachineSets above replicas+maxSurge (if it was not above already), provided every MachineSet's reported replica count is at least its requested one.", "quantifier": "all MachineDeployments, all lists of MachineSets with any spec and status", "why_tests_cant": "Depends on arbitrary combinations of spec, status and staleness of several MachineSets.", "anchors": ["pkg/controller/deployment_util.go:NewISNewReplicas", "pkg/controller/deployment_rolling.go:reconcileNewMachineSet", "pkg/controller/deployment_rolling.go:rolloutRolling"]}
{"id": "C03", "title": "New MachineSet stays within the requested size", "statement": "The size that a rolling update or recreate gives to the MachineSet of the current template is never above the MachineDeployment's replicas and, below that, never shrinks.", "quantifier": "all MachineDeployments and MachineSet states", "why_tests_cant": "Must hold for all replica counts including over-sized and stale ones.", "anchors": ["pkg/controller/deployment_util.go:NewISNewReplicas", "pkg/controller/deployment_rolling.go:reconcileNewMachineSet"]}
{"id": "C04", "title": "Availability floor", "statement": "When a rolling update shrinks the MachineSets of older templates, the available machines which those smaller sizes still keep, together with the available machines of the new set, number at least min(replicas - maxUnavailable, number available before).", "quantifier": "all lists of old MachineSets with any spec and availability, all budgets", "why_tests_cant": "The floor must survive every split of unavailable machines over any number of sets; the clean-up and the scale-down share one budget.", "anchors": ["pkg/controller/deployment_rolling.go:reconcileOldMachineSets", "pkg/controller/deployment_rolling.go:cleanupUnhealthyReplicas", "pkg/controller/deployment_rolling.go:scaleDownOldMachineSetsForRollingUpdate"]}
{"id": "C05", "title": "Rolling update finishes", "statement": "If after each reconcile every MachineSet reaches its requested size with all machines available, repeated reconciles bring the new set to exactly replicas and every old set to zero within a number of rounds bounded by the sizes, and in every intermediate state the surge limit and availability floor hold.", "quantifier": "all replica counts, all surge/unavailable budgets, any number and size of old MachineSets", "why_tests_cant": "A liveness claim over unbounded runs; a test shows one rollout of one size.", "anchors": ["pkg/controller/deployment_rolling.go:rolloutRolling", "pkg/controller/deployment_rolling.go:reconcileNewMachineSet", "pkg/controller/deployment_rolling.go:reconcileOldMachineSets"]}
{"id": "C06", "title": "Proportional scaling removes exactly the surplus", "statement": "When a MachineDeployment is scaled down in the middle of a rollout, no MachineSet's requested size becomes negative or grows, and the sum of the requested sizes becomes exactly the allowed size (replicas+maxSurge).", "quantifier": "all lists of active MachineSets with any sizes and any recorded size annotations", "why_tests_cant": "Rounding of fractions, leftovers and clamps interact; only a proof covers every distribution.", "anchors": ["pkg/controller/deployment_sync.go:scale", "pkg/controller/deployment_util.go:GetProportion", "pkg/controller/deployment_util.go:getMachineSetFraction"]}
{"id": "C07", "title": "Scaling keeps the rollout direction", "statement": "Scaling a MachineDeployment up in the middle of a rollout only ever grows the MachineSet of the newest template, never to more than replicas; old MachineSets keep their size; when the newest set is already saturated the old ones go to zero.", "quantifier": "all MachineDeployments and MachineSet lists", "why_tests_cant": "Needs all combinations of active/saturated/old sets.", "anchors": ["pkg/controller/deployment_sync.go:scale", "pkg/controller/deployment_sync.go:scaleNewMachineSet", "pkg/controller/deployment_util.go:IsSaturated", "pkg/controller/deployment_util.go:FindActiveOrLatest"]}
{"id": "C08", "title": "Recreate never overlaps generations", "statement": "Under the Recreate strategy, in every reachable history, no machine of a new template is requested while a machine of an older template is requested or known to be running.", "quantifier": "all histories of reconciles, template changes and machine starts and stops", "why_tests_cant": "Quantifies over schedules; a test fixes one.", "anchors": ["pkg/controller/deployment_recreate.go:rolloutRecreate", "pkg/controller/deployment_recreate.go:oldMachinesRunning"]}
{"id": "C09", "title": "Paused deployments do not roll out", "statement": "A reconcile of a paused MachineDeployment creates no MachineSet, gives no MachineSet a new template and deletes no MachineSet that is still in use; it may only rescale.", "quantifier": "all MachineDeployments and MachineSet lists", "why_tests_cant": "All states of the rollout at the time of pausing.", "anchors": ["pkg/controller/deployment_sync.go:sync", "pkg/controller/deployment_sync.go:scale", "pkg/controller/deployment_sync.go:cleanupMachineDeployment"]}
{"id": "C10", "title": "Revisions grow", "statement": "In every history of template changes and rollbacks the revision number recorded on the MachineSet that becomes current is strictly above those of all other MachineSets, numbers are never lowered, and no two MachineSets share one.", "quantifier": "all histories of template changes, rollbacks and history clean-ups", "why_tests_cant": "Invariant over unbounded histories.", "anchors": ["pkg/controller/deployment_util.go:MaxRevision", "pkg/controller/deployment_util.go:SetNewMachineSetAnnotations", "pkg/controller/deployment_sync.go:getNewMachineSet"]}
{"id": "C11", "title": "Rollback target", "statement": "An explicit rollback to revision r restores the template of a MachineSet carrying r and nothing else; rollback to 0 picks the second highest revision; with no such revision the spec is unchanged.", "quantifier": "all sets of MachineSets and revision numbers, including unparsable ones", "why_tests_cant": "All multisets of revisions incl. duplicates.", "anchors": ["pkg/controller/deployment_rollback.go:rollback", "pkg/controller/deployment_util.go:LastRevision"]}
{"id": "C12", "title": "History clean-up is safe", "statement": "Clean-up of old MachineSets deletes only sets that request no machines, report no machines, are observed and are not already being deleted; never the current one; at most (number of old sets - limit) of them and none when the limit is unset.", "quantifier": "all lists of old MachineSets", "why_tests_cant": "All status/generation combinations.", "anchors": ["pkg/controller/deployment_sync.go:cleanupMachineDeployment"]}
{"id": "C13", "title": "Conditions", "statement": "Setting a condition leaves exactly one condition of that type, does not touch conditions of other types, and moves the last-transition time only if the status value changed; repeated setting is idempotent. Same for MachineSets, and for what a pass reports about the progress of a rollout.", "quantifier": "all condition lists and all sequences of set/remove operations", "why_tests_cant": "All lists incl. duplicates, all operation sequences.", "anchors": ["pkg/controller/deployment_util.go:SetMachineDeploymentCondition", "pkg/controller/deployment_util.go:RemoveMachineDeploymentCondition", "pkg/controller/deployment_machineset_util.go:SetCondition"]}
{"id": "C14", "title": "Progress reporting", "statement": "A MachineDeployment is reported complete exactly when its updated, total and available counts all equal replicas and its generation is observed; progress-deadline expiry is reported only if the deadline has passed since the last progress and never for a rollout already reported complete; once reported timed out it stays so until progress; a pause and its end are shown, but do not replace a reported time-out.", "quantifier": "all statuses, deadlines and clock values", "why_tests_cant": "All clock/deadline/status histories.", "anchors": ["pkg/controller/deployment_util.go:MachineDeploymentComplete", "pkg/controller/deployment_util.go:MachineDeploymentProgressing", "pkg/controller/deployment_util.go:MachineDeploymentTimedOut", "pkg/controller/deployment_progress.go:syncRolloutStatus"]}
{"id": "C15", "title": "MachineSet reaches its size", "statement": "One reconcile of a MachineSet creates at most the number of missing machines and deletes exactly min(100, surplus) machines; repeated reconciles with an up-to-date view and no failures reach exactly the requested size and never overshoot.", "quantifier": "all machine lists, replica counts, API failure patterns", "why_tests_cant": "Unbounded sizes, bursts and failure patterns.", "anchors": ["pkg/controller/machineset.go:manageReplicas", "pkg/controller/machineset.go:slowStartBatch"]}
{"id": "C16", "title": "MachineSet does not over-create", "statement": "Even if its view of existing machines lags behind, a MachineSet never has more live machines created by it than its requested replicas.", "quantifier": "all interleavings of reconciles and delayed observation of creations", "why_tests_cant": "Only an adversarial schedule exposes it.", "anchors": ["pkg/controller/machineset.go:manageReplicas", "pkg/controller/machineset.go:reconcileClusterMachineSet", "pkg/controller/controller_utils.go:ContExpectations"]}
{"id": "C17", "title": "Frozen MachineSets create nothing", "statement": "A MachineSet carrying the freeze label never causes a machine to be created, while surplus machines are still deleted.", "quantifier": "all machine lists and replica counts", "why_tests_cant": "All states.", "anchors": ["pkg/controller/machineset.go:manageReplicas"]}
{"id": "C18", "title": "Which machines die first", "statement": "Machines removed on scale-down are minimal in the order (priority annotation, phase rank, age): no surviving machine precedes a removed one, exactly the requested number is removed, and each is one of the set's own machines.", "quantifier": "all machine lists with any priorities, phases and creation times", "why_tests_cant": "Sorting over arbitrary lists with ties and malformed priorities.", "anchors": ["pkg/controller/controller_utils.go:ActiveMachines", "pkg/controller/machineset.go:getMachinesToDelete"]}
{"id": "C19", "title": "Slow start limits failing calls", "statement": "Creating n machines issues calls in batches of 1,2,4,...; the number of successes reported is exact, at most n calls are made, after a batch with a failure no further call is made, and failing calls number at most one more than the successes before them.", "quantifier": "all n and all success/failure patterns of calls", "why_tests_cant": "All failure patterns.", "anchors": ["pkg/controller/machineset.go:slowStartBatch"]}
{"id": "C20", "title": "Ownership", "statement": "A controller adopts only a matching, non-deleting, unowned machine, only if it itself is not being deleted and a live read confirms it; releases only its own non-matching ones; never touches one owned by another; returns exactly its own matching ones plus those it adopted.", "quantifier": "all objects, owners, selectors and API outcomes", "why_tests_cant": "All combinations of owner, selector and deletion states and of API outcomes.", "anchors": ["pkg/controller/controller_ref_manager.go:ClaimObject", "pkg/controller/controller_ref_manager.go:ClaimMachines"]}
{"id": "C21", "title": "Parents outlive children", "statement": "The finalizer of a MachineSet (MachineDeployment) that is being deleted is removed only at a moment when the controller sees no machine (MachineSet) belonging to it; while some are left they are all asked to be deleted.", "quantifier": "all histories of reconciles, child creations and deletions", "why_tests_cant": "History property.", "anchors": ["pkg/controller/machineset.go:reconcileClusterMachineSet", "pkg/controller/deployment.go:reconcileClusterMachineDeployment", "pkg/controller/deployment.go:terminateMachineSets"]}
{"id": "C22", "title": "Expectations", "statement": "Deletion observations are counted at most once per machine however often events repeat; expectations are fulfilled exactly when all expected creations and deletions were observed; observation counts never go wrong by event order.", "quantifier": "all event sequences with duplicates and reorderings", "why_tests_cant": "All event orders.", "anchors": ["pkg/controller/controller_utils.go:ContExpectations", "pkg/controller/controller_utils.go:UIDTrackingContExpectations"]}
{"id": "C23", "title": "Overshoot freeze", "statement": "A MachineSet is frozen only if its machine count reached the upper limit and unfrozen only when the count is at or below the lower limit; between them nothing changes, so freeze and unfreeze never alternate without the count moving by at least the configured gap.", "quantifier": "all sequences of machine counts", "why_tests_cant": "Hysteresis over unbounded histories.", "anchors": ["pkg/controller/machine_safety.go:checkAndFreezeORUnfreezeMachineSets"]}
{"id": "C24", "title": "No machine object vanishes before its VM is deleted", "statement": "In every history, with API writes failing at any point, controller restarts, stale reads and arbitrary provider error texts, the machine finalizer is removed only after the provider reported the VM deleted (or not found) after deletion was requested, and the node object was deleted (or not found or never known).", "quantifier": "all interleavings of reconciles of all queues, all crash points, all API and provider outcomes, all provider error strings", "why_tests_cant": "The deletion stage is encoded in a free-text description that also carries provider text; only a proof over all strings and histories covers it.", "anchors": ["pkg/util/provider/machinecontroller/machine.go:triggerDeletionFlow", "pkg/util/provider/machinecontroller/machine_util.go:deleteVM", "pkg/util/provider/machinecontroller/machine_util.go:deleteNodeObject", "pkg/util/provider/machinecontroller/machine_util.go:deleteMachineFinalizers", "pkg/util/provider/machinecontroller/machine_util.go:setMachineTerminationStatus"]}
{"id": "C25", "title": "Drain before VM deletion", "statement": "In every history the provider's delete call for a machine is preceded by a completed drain of its node, or by one of: no node name known; a forced deletion (label, drain timeout over, or node unhealthy/read-only for more than five minutes) whose drain failed and whose volume attachments were then handled.", "quantifier": "all histories and drain outcomes", "why_tests_cant": "History property with many branches.", "anchors": ["pkg/util/provider/machinecontroller/machine_util.go:drainNode", "pkg/util/provider/machinecontroller/machine_util.go:deleteNodeVolAttachments", "pkg/util/provider/machinecontroller/machine.go:triggerDeletionFlow"]}
{"id": "C26", "title": "One VM per machine", "statement": "In every history of creation reconciles with crashes and failed writes between any two calls, if the provider reports existing VMs truthfully, at most one VM is ever created for a machine that is not re-created; a VM found by the status call is adopted instead of creating another.", "quantifier": "all histories of creation reconciles, crash points and provider outcomes", "why_tests_cant": "Crash-point quantification.", "anchors": ["pkg/util/provider/machinecontroller/machine.go:triggerCreationFlow", "pkg/util/provider/machinecontroller/machine.go:updateLabels"]}
{"id": "C27", "title": "No VM leak", "statement": "When a machine object is gone its VM is gone too, or is deleted by the next orphan collection; the orphan collection never deletes the VM of an existing machine whose provider ID it carries.", "quantifier": "all interleavings of the creation queue, termination queue and orphan collection", "why_tests_cant": "Race between two queues on one key.", "anchors": ["pkg/util/provider/machinecontroller/machine_safety.go:checkMachineClass", "pkg/util/provider/machinecontroller/machine.go:triggerCreationFlow", "pkg/util/provider/machinecontroller/machine.go:triggerDeletionFlow"]}
{"id": "C28", "title": "Phase transitions by health", "statement": "A health reconcile changes a machine's phase only as follows: to Running only with a healthy node (and, from Pending, without critical-component taint); to Unknown only from Running with unhealthy or missing node; to Failed only from Pending or Unknown after the configured timeout; a machine being deleted or failed is never brought back.", "quantifier": "all machines, node conditions, taints, clocks", "why_tests_cant": "Large input space.", "anchors": ["pkg/util/provider/machinecontroller/machine_util.go:reconcileMachineHealth", "pkg/util/provider/machinecontroller/machine_util.go:isHealthy"]}
{"id": "C29", "title": "Replacement rate limit", "statement": "Per MachineDeployment at most one machine is under replacement because of bad health at any time, whatever the number of concurrent workers.", "quantifier": "all interleavings of any number of workers over any number of machines and of cache updates", "why_tests_cant": "Concurrency: lock, cache and API interleave.", "anchors": ["pkg/util/provider/machinecontroller/machine_util.go:tryMarkingMachineFailed", "pkg/util/provider/machinecontroller/machine_util.go:canMarkMachineFailed", "pkg/util/provider/machinecontroller/machine_util.go:waitForFailedMachineCacheUpdate"]}
{"id": "C30", "title": "Permits are exclusive", "statement": "For a key registered with n permits, at most n holders exist at any time, releases return permits, and the background clean-up never invalidates a held permit.", "quantifier": "all interleavings of register, try, release, delete and clean-up", "why_tests_cant": "Concurrency.", "anchors": ["pkg/util/permits/permits.go:TryPermit", "pkg/util/permits/permits.go:ReleasePermit", "pkg/util/permits/permits.go:cleanupStalePermitEntries"]}
{"id": "C31", "title": "API-server safety freeze", "statement": "The controller freezes only after the API servers have been continuously unreachable for the configured time, changes no machine while frozen, and unfreezes once both respond, giving Unknown machines a fresh health timeout; the check keeps coming again.", "quantifier": "all sequences of reachability observations and clock values", "why_tests_cant": "History property.", "anchors": ["pkg/util/provider/machinecontroller/machine_safety.go:reconcileClusterMachineSafetyAPIServer", "pkg/util/provider/machinecontroller/machine.go:reconcileClusterMachine"]}
{"id": "C32", "title": "Node metadata sync is a three-way merge", "statement": "Syncing labels, annotations and taints from machine to node sets every key of the template to its value, removes keys that were applied earlier but are no longer in the template, leaves all others alone, and a second sync changes nothing.", "quantifier": "all label/annotation/taint maps, last-applied records and node states", "why_tests_cant": "All combinations of three maps.", "anchors": ["pkg/util/provider/machinecontroller/machine_util.go:SyncMachineAnnotations", "pkg/util/provider/machinecontroller/machine_util.go:SyncMachineLabels", "pkg/util/provider/machinecontroller/machine_util.go:SyncMachineTaints"]}
{"id": "C33", "title": "Taint updates", "statement": "Adding a taint leaves exactly one taint with its key and effect and keeps all others; removing removes exactly those; both report whether something changed; text form round-trips.", "quantifier": "all taint lists", "why_tests_cant": "All lists.", "anchors": ["pkg/util/taints/taints.go:AddOrUpdateTaint", "pkg/util/taints/taints.go:RemoveTaint", "pkg/util/taints/taints.go:DeleteTaint", "pkg/util/taints/taints.go:parseTaint"]}
{"id": "C34", "title": "Annotation and condition edits on nodes", "statement": "Adding then removing annotations or node conditions touches only the named keys; the cluster-autoscaler annotation added for a rollout is removed afterwards only where this controller added it.", "quantifier": "all annotation maps, condition lists", "why_tests_cant": "All maps.", "anchors": ["pkg/util/annotations/annotations.go:AddOrUpdateAnnotation", "pkg/util/annotations/annotations.go:DeleteAnnotation", "pkg/util/nodeops/conditions.go:CloneAndAddCondition", "pkg/controller/deployment_rolling.go:removeAutoscalerAnnotationsIfRequired"]}
{"id": "C35", "title": "Error codes survive transport as text", "statement": "Encoding a provider error (code, message) as text and decoding it gives back the same code and message.", "quantifier": "all 18 codes and all message strings", "why_tests_cant": "All strings incl. brackets.", "anchors": ["pkg/util/provider/machinecodes/status/status.go:FromError", "pkg/util/provider/machinecodes/status/status.go:Error", "pkg/util/provider/machinecodes/codes/codes.go:StringToCode"]}
{"id": "C36", "title": "Status-update suppression", "statement": "A status write is skipped only if phase, operation state, type and error code are unchanged, less than 30 minutes passed, and the description's edit distance is below a quarter of the average length; the distance computed is the true edit distance and symmetric.", "quantifier": "all pairs of strings and statuses", "why_tests_cant": "All strings.", "anchors": ["pkg/util/provider/machinecontroller/machine_util.go:isMachineStatusSimilar", "pkg/util/strings/string.go:StringSimilarityRatio"]}
{"id": "C37", "title": "User-data placeholders", "statement": "User data handed to the provider contains the token and machine name in place of every placeholder, otherwise unchanged, and no placeholder is left.", "quantifier": "all user-data strings, tokens and names", "why_tests_cant": "All strings.", "anchors": ["pkg/util/provider/machinecontroller/userdata.go:addBootstrapTokenToUserData", "pkg/util/provider/machinecontroller/userdata.go:addMachineNameToUserData"]}
{"id": "C38", "title": "Bootstrap tokens are per machine", "statement": "Different machines get different bootstrap tokens.", "quantifier": "all pairs of machine names", "why_tests_cant": "All names.", "anchors": ["pkg/util/provider/machinecontroller/userdata.go:getTokenIDAndSecretName"]}
{"id": "C39", "title": "Drain always ends", "statement": "Evicting pods terminates with exactly one result for each pod, for every mixture of pods, failures, cancellations and retry budget.", "quantifier": "all pod lists, eviction outcomes, cancellation points, retry budgets", "why_tests_cant": "All outcome patterns; hang detection.", "anchors": ["pkg/util/provider/drain/drain.go:evictPods", "pkg/util/provider/drain/drain.go:evictPodsWithPv", "pkg/util/provider/drain/drain.go:evictPodsWithPVInternal"]}
{"id": "C40", "title": "Drain picks the right pods", "statement": "A drain touches only pods on the machine's node, never mirror pods nor pods of an existing DaemonSet, and every other pod is touched; every pod is in exactly one of the with-volume and without-volume groups.", "quantifier": "all pod lists and owners", "why_tests_cant": "All lists.", "anchors": ["pkg/util/provider/drain/drain.go:getPodsForDeletion", "pkg/util/provider/drain/drain.go:filterPodsWithPv"]}
{"id": "C41", "title": "A successful drain really drained", "statement": "If a non-forced drain reports success then every selected pod was evicted or gone.", "quantifier": "all eviction outcomes and cancellation times", "why_tests_cant": "All schedules.", "anchors": ["pkg/util/provider/drain/drain.go:RunDrain", "pkg/util/provider/drain/drain.go:evictPodsWithPVInternal"]}
{"id": "C42", "title": "Shared volumes are not waited for", "statement": "Volumes used by more than one pod on the node are left out of the wait for detach; all others of a pod are kept in order.", "quantifier": "all assignments of volumes to pods", "why_tests_cant": "All maps.", "anchors": ["pkg/util/provider/drain/drain.go:filterSharedPVs"]}
{"id": "C43", "title": "Volume-attachment events reach waiting drains", "statement": "Each registered waiter gets the attachment events since registration in order up to its buffer, none after it unregistered; no event goes to a closed channel.", "quantifier": "all interleavings of register, unregister and events", "why_tests_cant": "Concurrency.", "anchors": ["pkg/util/provider/drain/volume_attachment.go:dispatch", "pkg/util/provider/drain/volume_attachment.go:DeleteWorker"]}
{"id": "C44", "title": "Machine classes in use are protected", "statement": "The finalizer on a machine class is removed only when no machine refers to it and is present once a machine refers to it (for a class not being deleted); edits of finalizers by others are not lost.", "quantifier": "all histories", "why_tests_cant": "History property incl. concurrent edits.", "anchors": ["pkg/util/provider/machinecontroller/machineclass.go:reconcileClusterMachineClass", "pkg/util/provider/machinecontroller/machineclass.go:addMachineClassFinalizers"]}
{"id": "C45", "title": "Template identity", "statement": "Whether a MachineSet is the one of the current template depends only on the template (hash label aside); equal templates are matched however metadata is laid out, and the choice among several matches is the oldest and independent of list order.", "quantifier": "all templates and MachineSet lists", "why_tests_cant": "All label maps and orders.", "anchors": ["pkg/controller/deployment_util.go:EqualIgnoreHash", "pkg/controller/deployment_util.go:FindNewMachineSet", "pkg/controller/deployment_util.go:FindOldMachineSets"]}
{"id": "C46", "title": "Accepted objects can be rolled out", "statement": "Every MachineDeployment accepted by validation can be rolled out by the controller: its strategy is supported and its budget lets it progress.", "quantifier": "all accepted MachineDeployments", "why_tests_cant": "All specs.", "anchors": ["pkg/apis/machine/validation/machinedeployment.go:ValidateMachineDeployment", "pkg/controller/deployment_rolling.go:rolloutRolling", "pkg/controller/deployment_util.go:NewISNewReplicas"]}
{"id": "C47", "title": "Machine settings override global ones", "statement": "For each timeout and limit the per-machine value is used if given, else the global one; drain retries never exceed the configured maximum and are at least one.", "quantifier": "all configurations", "why_tests_cant": "All durations.", "anchors": ["pkg/util/provider/machinecontroller/machine_util.go:getEffectiveDrainTimeout", "pkg/util/provider/machinecontroller/machine_util.go:getEffectiveMaxEvictRetries", "pkg/util/provider/machinecontroller/machine_util.go:drainNode"]}
{"id": "C48", "title": "Queue retries", "statement": "A failing key is retried a fixed number of times and then dropped until the next event; a succeeding key resets the count.", "quantifier": "all sequences of outcomes", "why_tests_cant": "All sequences.", "anchors": ["pkg/util/worker/worker.go:worker"]}
{"id": "C49", "title": "Status counts", "statement": "Reported counts satisfy 0 <= ready, available, fully-labelled <= replicas = number of machines; deployment totals are the sums over its sets; unavailable is never negative.", "quantifier": "all machine lists", "why_tests_cant": "All lists.", "anchors": ["pkg/controller/deployment_machineset_util.go:calculateMachineSetStatus", "pkg/controller/deployment_sync.go:calculateDeploymentStatus"]}
{"id": "C50", "title": "Machine deletion reaches the end", "statement": "From every deletion stage, if provider and API calls succeed, a bounded number of reconciles removes the finalizer.", "quantifier": "all machines, stages and descriptions", "why_tests_cant": "Liveness.", "anchors": ["pkg/util/provider/machinecontroller/machine.go:triggerDeletionFlow"]}
{"id": "C51", "title": "A size change is handled once", "statement": "After a scaling reconcile whose writes all succeed, the next reconcile of the unchanged MachineDeployment is not taken for a scaling again, so a rollout in progress continues.", "quantifier": "all MachineDeployments and MachineSet lists", "why_tests_cant": "Needs every combination of sizes, strategies and recorded annotations, and two consecutive reconciles.", "anchors": ["pkg/controller/deployment_sync.go:isScalingEvent", "pkg/controller/deployment_sync.go:scale"]}
{"id": "C52", "title": "Failed machine summaries", "statement": "The failed-machine summaries of a MachineSet list exactly its machines whose last operation failed, each with its own name, provider id, operation and owner; once none is failed the list is empty.", "quantifier": "all machine lists and previous statuses", "why_tests_cant": "All lists and histories.", "anchors": ["pkg/controller/deployment_machineset_util.go:calculateMachineSetStatus"]}
{"id": "C53", "title": "Status changes are published", "statement": "A MachineDeployment status is left unwritten only if every count, condition, the generation and the names and descriptions of failed machines are already stored.", "quantifier": "all pairs of statuses", "why_tests_cant": "All pairs of statuses, lists of any length.", "anchors": ["pkg/controller/deployment_util.go:statusUpdateRequired"]}
{"id": "C54", "title": "Availability reporting", "statement": "The Available condition is True exactly when the machines reported available are at least replicas minus the allowed unavailable ones.", "quantifier": "all MachineDeployments and MachineSets", "why_tests_cant": "All sizes and budgets.", "anchors": ["pkg/controller/deployment_sync.go:calculateDeploymentStatus"]}
{"id": "C55", "title": "A chosen machine is deleted", "statement": "A machine a MachineSet decided to delete (surplus, failed or marked by annotation) is asked to be deleted again in later reconciles until a delete call succeeds.", "quantifier": "all histories with failing delete calls", "why_tests_cant": "Needs arbitrary failures and unbounded continuations.", "anchors": ["pkg/controller/machineset.go:prepareMachineForDeletion", "pkg/controller/machineset.go:manageReplicas"]}
{"id": "C56", "title": "Deleted parents go away", "statement": "A MachineDeployment or MachineSet that is being deleted and whose children are all gone loses the finalizer in its next successful reconcile.", "quantifier": "all accepted objects", "why_tests_cant": "Liveness for every accepted object.", "anchors": ["pkg/controller/deployment.go:reconcileClusterMachineDeployment", "pkg/controller/machineset.go:reconcileClusterMachineSet"]}
{"id": "C57", "title": "Finalizers of others are kept", "statement": "Adding or removing the controller's finalizer on a MachineSet or MachineDeployment keeps every finalizer of others, whoever edits the object meanwhile.", "quantifier": "all finalizer lists and interleavings of edits", "why_tests_cant": "Interleavings of concurrent writers.", "anchors": ["pkg/controller/machineset.go:updateMachineSetFinalizers", "pkg/controller/deployment.go:updateMachineDeploymentFinalizers"]}
{"id": "C58", "title": "Accepted selectors select", "statement": "If a MachineSet or MachineDeployment is accepted, the machines made from its template match its selector, so they are counted as its own.", "quantifier": "all selectors and templates", "why_tests_cant": "All label maps, including empty values.", "anchors": ["pkg/apis/machine/validation/machineset.go:validateMachineSetSpec", "pkg/apis/machine/validation/machinedeployment.go:validateMachineDeploymentSpec"]}
{"id": "C59", "title": "Only machines to be deleted are terminated", "statement": "The node of a machine is drained or deleted, its volume attachments removed and its VM deleted by the termination flow only if deletion of that machine was requested; the flow never crashes the controller.", "quantifier": "all histories of one machine name, including re-creation under the same name", "why_tests_cant": "Needs every interleaving of queues, caches and re-created objects.", "anchors": ["pkg/util/provider/machinecontroller/machine.go:reconcileClusterMachineTermination", "pkg/util/provider/machinecontroller/machine.go:triggerDeletionFlow", "pkg/util/provider/machinecontroller/machine_util.go:drainNode"]}
{"id": "C60", "title": "Errors without a code are not given one", "statement": "An error text is read as carrying an error code only if it was produced from a provider status with that code; any other error text is treated as having no code.", "quantifier": "all error texts", "why_tests_cant": "All strings, including texts with brackets from foreign libraries.", "anchors": ["pkg/util/provider/machinecodes/status/status.go:FromError", "pkg/util/provider/machinecodes/codes/codes.go:StringToCode"]}
{"id": "C61", "title": "The provider's last known state is kept", "statement": "When a provider call returns a last known state, that state is stored in the machine status and is still there for the next provider call, unless the provider returned a newer one.", "quantifier": "all statuses, errors and returned states", "why_tests_cant": "All pairs of texts and states.", "anchors": ["pkg/util/provider/machinecontroller/machine_util.go:machineStatusUpdate", "pkg/util/provider/machinecontroller/machine_util.go:deleteVM"]}
{"id": "C62", "title": "Old nodes are tainted during a rollout", "statement": "Once an old MachineSet carries the mark of the rollout taint, the nodes of its machines carry the taint; on rollback the taint is taken off all of them again.", "quantifier": "all machine lists and all failures, stale reads and concurrent edits of node objects", "why_tests_cant": "Interleavings and failures per node; a lost taint shows only much later.", "anchors": ["pkg/controller/deployment_rolling.go:taintNodesBackingMachineSets", "pkg/controller/deployment_rollback.go:removeTaintNodesBackingMachineSet", "pkg/util/nodeops/taints.go:AddOrUpdateTaintOnNode"]}
{"id": "C63", "title": "Machines named for deletion are deleted first", "statement": "Machines named in the trigger-deletion annotation of a MachineDeployment get priority 1, only they do, and only names of machines that are gone, failed or terminating leave the list.", "quantifier": "all annotation texts, machine states and failing updates", "why_tests_cant": "All lists of names and all patterns of failures.", "anchors": ["pkg/controller/deployment.go:setMachinePriorityAnnotationAndUpdateTriggeredForDeletion", "pkg/util/annotations/annotations.go:GetMachineNamesTriggeredForDeletion"]}
{"id": "C65", "title": "Secrets in use are protected", "statement": "A secret that a MachineClass refers to carries the finalizer of the machine controller, the finalizer is taken off only when no class refers to the secret, and a secret that a class starts or ceases to refer to is looked at again.", "quantifier": "all secrets, classes, cache states and interleavings of edits", "why_tests_cant": "Needs every order of class edits, secret edits and cache updates.", "anchors": ["pkg/util/provider/machinecontroller/secret.go:reconcileClusterSecret", "pkg/util/provider/machinecontroller/secret.go:machineClassToSecretUpdate", "pkg/util/provider/machinecontroller/secret_util.go:findMachineClassForSecret"]}
{"id": "C66", "title": "Waiting for volumes to be attached elsewhere", "statement": "After the eviction of a pod the drain waits until each tracked volume is reported attached to another node: such a report that comes after the eviction ends the wait, nothing else does but the deadline.", "quantifier": "all sequences of attachment events, any number of waiters and any interleaving", "why_tests_cant": "Which events are missed depends on buffer sizes and interleaving.", "anchors": ["pkg/util/provider/drain/drain.go:waitForReattach", "pkg/util/provider/drain/drain.go:isDesiredReattachment", "pkg/util/provider/drain/volume_attachment.go:dispatch"]}
{"id": "C67", "title": "Pods with volumes leave one after the other", "statement": "During a drain, the pods with volumes are evicted in the order of descending priority; after the eviction of one nothing is asked of the next before the wait for its volumes to leave the node has ended, and that wait ends well only if a look at the node shows none of them attached.", "quantifier": "all pods, priorities, volumes, answers of the API server, sequences of node states, retry budgets", "why_tests_cant": "Order and waiting depend on the interleaving of node polls with evictions; the tests use fixed fake clients with a handful of pods.", "anchors": ["pkg/util/provider/drain/drain.go:evictPodsWithPVInternal", "pkg/util/provider/drain/drain.go:waitForDetach", "pkg/util/provider/drain/drain.go:sortPodsByPriority"]}
{"id": "C68", "title": "Names of new MachineSets", "statement": "If the name for the MachineSet of a new template is taken, the controller uses the set in the way only if it is its own and has that template; otherwise it counts the collision and tries the next name, so that the set is created as soon as a name is free, under an owner reference, with a selector that selects exactly its own machines.", "quantifier": "all templates, hash values, existing MachineSets, stale caches, failing status updates", "why_tests_cant": "Collisions of truncated hashes cannot be provoked in unit tests without fixing the hash function; the tests use one template.", "anchors": ["pkg/controller/deployment_sync.go:getNewMachineSet", "pkg/controller/controller_utils.go:ComputeHash", "pkg/util/labels/labels.go:CloneSelectorAndAddLabel"]}
{"id": "C69", "title": "Old machines are given up only as new ones become available", "statement": "In a rolling update pass, whatever API calls fail, the requested machines of the old MachineSets plus the available machines of the new MachineSet do not fall below replicas minus maxUnavailable (or below what they were before the pass, if that is less): machines of the new MachineSet that are not yet available never justify removing old machines, even unavailable ones.", "quantifier": "all MachineDeployments, strategies, sets of MachineSets and patterns of failing API calls", "why_tests_cant": "Needs arithmetic over all distributions of requested and available machines over any number of old sets, with failures in the middle of the clean-up loop; the tests fix a handful of rows.", "anchors": ["pkg/controller/deployment_rolling.go:reconcileOldMachineSets", "pkg/controller/deployment_rolling.go:cleanupUnhealthyReplicas", "pkg/controller/deployment_rolling.go:scaleDownOldMachineSetsForRollingUpdate"]}
{"id": "C70", "title": "The failure condition of a MachineSet tells the current failure", "statement": "After each reconcile of a MachineSet its ReplicaFailure condition is present exactly if creating or deleting machines failed in that reconcile, with the error as message and a reason that says whether creation (machines missing) or deletion (too many machines) failed; other conditions are untouched.", "quantifier": "all MachineSet statuses, machine lists and errors", "why_tests_cant": "The unit tests check single transitions; stale reasons appear only in sequences of different failures.", "anchors": ["pkg/controller/deployment_machineset_util.go:calculateMachineSetStatus", "pkg/controller/deployment_machineset_util.go:SetCondition"]}
{"id": "C71", "title": "Failures of MachineSets surface at the MachineDeployment", "statement": "The MachineDeployment has a ReplicaFailure condition exactly while one of its MachineSets has one; status, reason and message are those of a failing MachineSet, and of the new MachineSet if that one fails.", "quantifier": "all MachineDeployments and lists of MachineSets", "why_tests_cant": "Depends on which of any number of MachineSets fail and on what was reported before; tests check a single failing set.", "anchors": ["pkg/controller/deployment_progress.go:getReplicaFailures", "pkg/controller/deployment_progress.go:syncRolloutStatus"]}
{"id": "C72", "title": "Machines follow their MachineSet's template", "statement": "When a MachineSet has nothing left to do (its key is not queued and every event has arrived), every machine it lists has its class kind and, unless failed or terminating, its node template and configuration, after any interleaving of changes to the set, writes by others, creations and deletions, watch deliveries, conflicts and reconciles.", "quantifier": "all numbers of machines, states of API server and cache, and sequences of events and reconciles", "why_tests_cant": "Depends on the interleaving of cache refreshes, in-place changes of cached objects and API outcomes over many reconciles; tests call one sync function on a static store.", "anchors": ["pkg/controller/machineset_util.go:syncMachinesNodeTemplates", "pkg/controller/machineset_util.go:syncMachinesConfig", "pkg/controller/machineset_util.go:syncMachinesClassKind", "pkg/controller/machineset.go:UpdateMachineWithRetries"]}
{"id": "C73", "title": "Copying the template undoes nobody's change", "statement": "While a MachineSet copies its template to its machines, every other part of a machine stays as others last wrote it, also when they write between the controller's read and its update, and whatever the outcomes of the calls.", "quantifier": "all states reachable by any sequence of events and reconciles, all events and outcomes during a reconcile", "why_tests_cant": "A lost update needs a write between a cached read and an update, at any of the calls of any machine; tests run one at a time.", "anchors": ["pkg/controller/machineset.go:UpdateMachineWithRetries", "pkg/controller/machineset_util.go:syncMachinesNodeTemplates"]}
{"id": "C74", "title": "A machine event wakes every MachineSet it concerns", "statement": "Whenever a machine is added, changed or removed (also as a tombstone), the MachineSet that controls it, the one that controlled it before, and every MachineSet that may now adopt it are queued, and no others.", "quantifier": "all sets of MachineSets with any selectors, all machines and pairs of versions, all owner references", "why_tests_cant": "The combinations of labels, owner references, deletion and versions of two objects are unbounded; tests cover a handful of pairs.", "anchors": ["pkg/controller/machineset.go:addMachineToMachineSet", "pkg/controller/machineset.go:updateMachineToMachineSet", "pkg/controller/machineset.go:deleteMachineToMachineSet", "pkg/controller/machineset.go:getMachineMachineSets"]}
{"id": "C75", "title": "A MachineSet event wakes every MachineDeployment it concerns", "statement": "Whenever a MachineSet is added, changed or removed, the MachineDeployment that controls it, the one that controlled it before, and every one that may now adopt it are queued, and no others; the MachineSet itself is queued too.", "quantifier": "all deployments with any selectors, all MachineSets and pairs of versions, all answers to the reads", "why_tests_cant": "Same as for machines, with reads that may fail at any time.", "anchors": ["pkg/controller/deployment.go:addMachineSetToDeployment", "pkg/controller/deployment.go:updateMachineSetToDeployment", "pkg/controller/deployment.go:deleteMachineSetToDeployment", "pkg/controller/deployment_util.go:GetMachineDeploymentsForMachineSet"]}
{"id": "C76", "title": "The end of the last machine wakes a Recreate deployment", "statement": "When the last machine of a MachineDeployment with strategy Recreate is gone, the deployment is queued, so that the new machines are created.", "quantifier": "all deployments, MachineSets and machines", "why_tests_cant": "Tests call the handler directly and so cannot see that another one is registered.", "anchors": ["pkg/controller/deployment.go:deleteMachineToMachineDeployment", "pkg/controller/controller.go:NewController"]}
{"id": "C77", "title": "Expectations are lowered by the set's own machines only", "statement": "An event lowers the outstanding creations of a MachineSet exactly if it shows a new machine that this set controls, and its outstanding deletions only for machines it controls that are going or gone, and for all of these.", "quantifier": "all sets of MachineSets, all events", "why_tests_cant": "A wrong count needs a particular combination of two versions and owners; the effect shows only later as too many or too few machines.", "anchors": ["pkg/controller/machineset.go:addMachineToMachineSet", "pkg/controller/machineset.go:deleteMachineToMachineSet"]}
{"id": "C78", "title": "Node events reach the machine behind the node, and only that", "statement": "When a node is added or changed, the machine whose node it is gets queued exactly if the node's conditions differ from the recorded ones or the taint for critical components comes or goes; when the node is deleted the machine is queued; when the node carries the annotation to trigger deletion, deletion of the machine is requested, once. No other machine is queued or deleted.", "quantifier": "all sets of machines, all nodes and their earlier versions, all annotations, taints and conditions", "why_tests_cant": "The handlers have no return value and tests call them with one machine and one condition; the combination of label, annotation, phase and conditions is unbounded.", "anchors": ["pkg/util/provider/machinecontroller/machine.go:addNodeToMachine", "pkg/util/provider/machinecontroller/machine.go:updateNodeToMachine", "pkg/util/provider/machinecontroller/machine.go:deleteNodeToMachine"]}
{"id": "C79", "title": "No machine is forgotten by the machine controller", "statement": "After any sequence of store changes, delivered events, worker steps and failures, a machine in the store that is not being deleted is in the machine queue or on its way there, and one that is being deleted is in the termination queue or on its way there.", "quantifier": "all histories of the informer store, the notes under way and any number of workers of both queues", "why_tests_cant": "A lost key shows only as a machine that nothing happens to; it depends on the interleaving of worker, store and event delivery.", "anchors": ["pkg/util/provider/machinecontroller/machine.go:updateMachine", "pkg/util/provider/machinecontroller/machine.go:reconcileClusterMachineKey", "pkg/util/provider/machinecontroller/machine.go:reconcileClusterMachineTermination"]}
{"id": "C80", "title": "Deletion of a machine starts the clean-up passes", "statement": "Every deletion of a machine that the controller learns of queues the machine for termination, its class for a finalizer check and the pass for orphan VMs, and no event makes the controller panic.", "quantifier": "all machines, all forms in which the informer reports a deletion", "why_tests_cant": "Tombstones occur only when the watch is interrupted during the deletion.", "anchors": ["pkg/util/provider/machinecontroller/machine_safety.go:deleteMachineToSafety", "pkg/util/provider/machinecontroller/machineclass.go:machineToMachineClassDelete"]}
{"id": "C81", "title": "A class is worked on by one worker at a time", "statement": "No two workers reconcile the same machine class at the same time.", "quantifier": "all histories of the class queue, any number of workers", "why_tests_cant": "The overlap depends on the timing of two workers.", "anchors": ["pkg/util/provider/machinecontroller/machineclass.go:machineToMachineClassAdd", "pkg/util/provider/machinecontroller/machineclass.go:machineClassAdd"]}
{"id": "C64", "title": "Unmanaged nodes are marked, managed ones are not", "statement": "A pass marks every node without machine that is older than the creation time-out, removes the mark from every node with exactly one machine, and changes no other annotation and no other node.", "quantifier": "all node lists, machine lists, times and failing updates", "why_tests_cant": "The outcome depends on the order of nodes and on which update fails.", "anchors": ["pkg/util/provider/machinecontroller/machine_safety.go:AnnotateNodesUnmanagedByMCM", "pkg/util/provider/machinecontroller/machine_safety_util.go:updateNodeWithAnnotations"]}
{"id": "C82", "title": "A safety pass deletes all orphaned VMs and no others", "statement": "In one pass a VM listed for a class is deleted exactly if no machine of its name is in the cache, or the machine has another provider ID and is past creation; the nodes are checked in the same pass and the pass is queued again, whatever fails.", "quantifier": "all classes, VM lists, caches and failures", "why_tests_cant": "A wrong decision deletes a VM in use or leaks one; it depends on which classes fail and on the phase of the machine.", "anchors": ["pkg/util/provider/machinecontroller/machine_safety.go:checkMachineClasses", "pkg/util/provider/machinecontroller/machine_safety.go:checkMachineClass", "pkg/util/provider/machinecontroller/machine_safety.go:reconcileClusterMachineSafetyOrphanVMs"]}
{"id": "C83", "title": "The provider gets the data of both secrets", "statement": "The data passed to the provider are the union of the secret and the credentials secret of the class, the latter winning; a secret that cannot be read fails the reconcile.", "quantifier": "all secrets and lookup results", "why_tests_cant": "Error paths of listers do not occur with fake clients.", "anchors": ["pkg/util/provider/machinecontroller/machine_util.go:getSecretData", "pkg/util/provider/machinecontroller/machine_util.go:getSecret", "pkg/util/provider/machinecontroller/machine_util.go:mergeDataMaps"]}
{"id": "C84", "title": "Machines are worked on only with a protected, valid class", "statement": "A machine is reconciled only if its class has the finalizer of the controller and its node template is complete; a class that lacks only the finalizer is queued to get it.", "quantifier": "all classes", "why_tests_cant": "Combination of all fields of the class.", "anchors": ["pkg/util/provider/machinecontroller/machine_util.go:ValidateMachineClass", "pkg/util/provider/machinecontroller/machine_util.go:validateNodeTemplate"]}
{"id": "C85", "title": "Changed settings reach the current MachineSet", "statement": "After a reconcile whose update goes through, the MachineSet of the current template has the node template, machine configuration, class kind, minReadySeconds and annotations of its MachineDeployment; the annotations an object has for itself and the remaining template are not touched.", "quantifier": "all deployments, sets, revisions and update results", "why_tests_cant": "Unit tests copy one annotation; the interplay of four copies with unreadable revisions and empty values needs all maps.", "anchors": ["pkg/controller/deployment_sync.go:getNewMachineSet", "pkg/controller/deployment_util.go:SetNewMachineSetAnnotations", "pkg/controller/deployment_util.go:copyMachineDeploymentAnnotationsToMachineSet"]}
{"id": "C86", "title": "Copying settings comes to rest", "statement": "After a successful copy the next reconcile of an unchanged deployment writes nothing to the MachineSet; its revision history only grows, and its entries are the revisions the set has left.", "quantifier": "all deployments, sets and highest old revisions", "why_tests_cant": "Tests run the function once.", "anchors": ["pkg/controller/deployment_sync.go:getNewMachineSet", "pkg/controller/deployment_util.go:SetNewMachineSetNodeTemplate", "pkg/controller/deployment_util.go:SetNewMachineSetConfig"]}
{"id": "C87", "title": "A rollback restores the annotations of the old MachineSet", "statement": "After a rollback the deployment has the annotations of the set rolled back to and its own bookkeeping annotations; pending requests on the deployment are kept.", "quantifier": "all annotation maps", "why_tests_cant": "Needs all keys and both maps.", "anchors": ["pkg/controller/deployment_util.go:SetMachineDeploymentAnnotationsTo", "pkg/controller/deployment_rollback.go:rollbackToTemplate"]}
{"id": "C88", "title": "Adopted MachineSets keep their machines", "statement": "When a MachineSet without template hash is adopted, its selector is narrowed to the hash only after all its machines carry the label; no other label, selector entry or replica count is changed, and the narrowed selector fits the template.", "quantifier": "all sets, machines, caches and API answers, all interleavings of conflicts and failures", "why_tests_cant": "The order of writes under conflicts and failures is not seen by tests with a fake client.", "anchors": ["pkg/controller/deployment_sync.go:addHashKeyToISAndMachines", "pkg/controller/deployment_util.go:LabelMachinesWithHash", "pkg/controller/machineset_util.go:UpdateISWithRetries"]}
{"id": "C89", "title": "Labelling an adopted MachineSet does not crash the controller", "statement": "Whatever set is adopted and whatever happens to it meanwhile, the labelling ends with the set or an error.", "quantifier": "all sets and answers", "why_tests_cant": "Needs a set deleted between two steps of one reconcile.", "anchors": ["pkg/controller/deployment_sync.go:addHashKeyToISAndMachines", "pkg/util/labels/labels.go:SelectorHasLabel"]}
{"id": "C90", "title": "Adopted MachineSets are labelled in one reconcile", "statement": "If no call fails and the set reaches its labelled replicas within a minute, one reconcile labels it; a set that does not must not hold up the others.", "quantifier": "all sets and answers", "why_tests_cant": "Tests cannot wait for the polling of caches.", "anchors": ["pkg/controller/deployment_sync.go:isAndMachinesWithHashKeySynced", "pkg/controller/deployment_util.go:WaitForMachinesHashPopulated", "pkg/controller/deployment_util.go:WaitForMachineSetUpdated"]}
{"id": "C91", "title": "Writes to Node objects lose nothing", "statement": "Setting or removing annotations and setting a condition on a Node adds at most one state on top of the newest one and changes nothing else in it, whatever is read from a stale cache and whatever others write meanwhile; an error means that nothing was written; no error means that the node was seen as wanted; conflicts are retried.", "quantifier": "all histories of the node object, all stale reads, interleaved writes and failures", "why_tests_cant": "Interleavings with other clients and caches that lag are not reachable in unit tests with a fake client.", "anchors": ["pkg/controller/controller_utils.go:AddOrUpdateAnnotationOnNode", "pkg/controller/controller_utils.go:RemoveAnnotationsOffNode", "pkg/controller/controller_utils.go:UpdateNodeAnnotations", "pkg/util/nodeops/conditions.go:AddOrUpdateConditionsOnNode"]}
{"id": "C92", "title": "The autoscaler stays away from all nodes of a rollout", "statement": "While old machines are left, every node of the deployment gets the two annotations that keep the autoscaler away; when the rollout is complete, exactly the nodes that this controller marked lose them; trouble with one node does not harm the others.", "quantifier": "all sets, machines and nodes; any failures of calls", "why_tests_cant": "Failures of single nodes among many.", "anchors": ["pkg/controller/deployment_rolling.go:annotateNodesBackingMachineSets", "pkg/controller/deployment_rolling.go:removeAutoscalerAnnotationsIfRequired", "pkg/controller/deployment_rolling.go:machineSetsScaledToZero"]}
{"id": "C93", "title": "The end of a node is announced with its cause", "statement": "Before a drain the node gets one condition Terminating, true, with the cause: unhealthy for a machine that failed, scale-down otherwise; a cause given before is kept; a missing node is no error.", "quantifier": "all histories of a machine, all histories of the node object", "why_tests_cant": "The cause depends on the order of steps over several reconciles.", "anchors": ["pkg/util/provider/machinecontroller/machine_util.go:UpdateNodeTerminationCondition", "pkg/util/provider/machinecontroller/machine_util.go:setTerminationReasonByPhase", "pkg/util/nodeops/conditions.go:CloneAndAddCondition"]}
{"id": "C94", "title": "Disruption budgets come first while retries remain", "statement": "A drain that is not forced asks for an eviction, and deletes a pod past its disruption budget only after its eviction was refused as often as there are retries; an eviction that can never succeed because of a wrong budget is reported at once, and only then; a forced drain evicts nothing but deletes.", "quantifier": "all pods, budgets, answers of the API server and numbers of retries", "why_tests_cant": "The answers differ from attempt to attempt and over pods that are drained together.", "anchors": ["pkg/util/provider/drain/drain.go:evictPodsWithPVInternal", "pkg/util/provider/drain/drain.go:evictPodWithoutPVInternal", "pkg/util/provider/drain/drain.go:isMisconfiguredPdb", "pkg/util/provider/drain/drain.go:RunDrain"]}
{"id": "C95", "title": "The creation of a machine reports its progress truthfully", "statement": "While a machine is created every status that is written is true: it is reported as Pending only after the provider has just reported its VM and node name, provider ID and priority are recorded; a failure is reported exactly when a call of the provider failed, with that call's code and text, as CrashLoopBackOff before the creation timeout and as Failed after it; only values given by the provider are recorded about the VM, nothing else of the machine changes, and recorded values are not lost; a VM is created only when the provider has none, initialized before the machine counts as Pending, and deleted again only if it came up under the name of a foreign node. In every history each stored status is consistent: the time-out runs exactly in phase Pending, and no recorded time lies in the future.", "quantifier": "for all machines, configurations, answers of the provider, clocks and interleavings", "why_tests_cant": "The answers of a driver can come in any combination with any recorded state of the machine; tests script a handful of driver answers and look at one resulting status.", "anchors": ["pkg/util/provider/machinecontroller/machine.go:triggerCreationFlow", "pkg/util/provider/machinecontroller/machine.go:updateLabels", "pkg/util/provider/machinecontroller/machine.go:initializeMachine", "pkg/util/provider/machinecontroller/machine_util.go:machineCreateErrorHandler", "pkg/util/provider/machinecontroller/machine_util.go:updateMachineStatusAndNodeLabel"]}
{"id": "C96", "title": "A MachineSet status is that of a state it was in", "statement": "The status written for a MachineSet is always the one computed from a state that set was really in, stored together with the generation of that state, and the write changes nothing else of the set, whatever others do to the set in between; the observed generation never goes back and never exceeds the generation, and once it equals the generation the counts and failed machines shown are those computed for the present replicas and template; a reconcile whose calls succeed leaves the computed status stored although others changed the set meanwhile, and writes nothing when everything shown is right already.", "quantifier": "for all histories: changes by others, deletions, re-creations, reads, lost and repeated writes, crashes", "why_tests_cant": "A conflicting writer must act exactly between the read, the first write and the second; the tests call the function once on a set nobody else touches.", "anchors": ["pkg/controller/deployment_machineset_util.go:updateMachineSetStatus", "pkg/controller/machineset.go:reconcileClusterMachineSet"]}
{"id": "C97", "title": "The mark of a deleted machine is stored or an error is reported", "statement": "When the MachineSet controller deletes a machine it marks it as Terminating: it changes only operation and phase of that machine; it reports success only after the mark was stored; it leaves the write out only if the machine bears the mark already and recently; it fails only if the machine cannot be read; it ends, and it never marks another machine nor undoes progress of a deletion under way.", "quantifier": "for all cached statuses, machines read, times and sequences of failing or half-failing writes", "why_tests_cant": "The result depends on a stale cache, on how often writes fail and on the half-hour refresh window; the tests use one fake client that never fails.", "anchors": ["pkg/controller/machineset.go:updateMachineStatus", "pkg/controller/machineset.go:isMachineStatusEqual", "pkg/controller/machineset.go:prepareMachineForDeletion"]}
{"id": "C98", "title": "A machine made by a MachineSet is its template and belongs to it", "statement": "Every machine that a MachineSet makes has exactly the labels, annotations, finalizers and specification of the set's template and the set as its only owner and controller; it is claimed by that set, without a write, and by no other, carries the template hash of its deployment's set, counts as a replica at once, bears a valid name that no machine of another set gets, and names neither a node nor a VM beforehand; a machine is made whenever the API server takes it.", "quantifier": "for all templates, selectors with labels and expressions, set names, generated suffixes and verdicts of the API server", "why_tests_cant": "Whether the made machine is claimed and counted depends on selector, template, validation and claiming together, in different files; the tests build one template with one label and compare a few fields.", "anchors": ["pkg/controller/controller_utils.go:GetMachineFromTemplate", "pkg/controller/controller_utils.go:createMachines", "pkg/controller/controller_utils.go:CreateMachinesWithControllerRef", "pkg/controller/controller_utils.go:validateControllerRef", "pkg/controller/machineset.go:manageReplicas"]}
{"id": "C99", "title": "Metrics show the stored numbers", "statement": "After a scrape each machine deployment, machine set and machine shows exactly the numbers of its present specification and status, its conditions as true, false or unknown, its phase, and its failed machines; the count is the number of objects; a scrape never stops the process, tells of a failed list call, leaves the series of other objects alone, and what no longer exists is no longer shown; the counter of removed stale machines loses none, counts none twice and never falls.", "quantifier": "for all lists of objects with any specification and status, all earlier contents of the gauges, all interleavings of deletions and scrapes", "why_tests_cant": "The metrics code has no tests; whether a series is right depends on the labels declared in another file, on pointers that may be nil and on what earlier scrapes left behind.", "anchors": ["pkg/controller/metrics.go:CollectMachineDeploymentMetrics", "pkg/controller/metrics.go:CollectMachineSetMetrics", "pkg/controller/metrics.go:updateMachineSetStatusRelatedMetric", "pkg/controller/metrics.go:updateMachineDeploymentSpecRelatedMetrics", "pkg/util/provider/machinecontroller/metrics.go:CollectMachineMetrics"]}
{"id": "C100", "title": "A rolling update as a whole keeps its limits and ends", "statement": "Through a whole rolling update - the deployment controller working on cached objects, the MachineSet controllers making and deleting machines and reporting, machines becoming available, failing and vanishing, calls failing, in any order - the new set only moves towards the wanted number and the old sets only shrink; there are never more machines than the wanted number and the surge, and never fewer available ones than the wanted number less the allowed unavailability other than by machines that fail of themselves; and once enough reconciles have seen the sets complete, the new set has the wanted size, the old ones are empty, and this stays so, however many old machines were broken.", "quantifier": "for all deployments, sets, budgets, and all interleavings of reconciles with arbitrary cached views, status writes, machine creations and deletions, failures and API errors", "why_tests_cant": "unit tests run one reconcile on one prepared state with an up-to-date fake store; the claim is about all executions of several controllers with outdated caches", "anchors": ["pkg/controller/deployment_rolling.go:rolloutRolling", "pkg/controller/deployment_rolling.go:reconcileNewMachineSet", "pkg/controller/deployment_rolling.go:reconcileOldMachineSets", "pkg/controller/deployment_rolling.go:cleanupUnhealthyReplicas", "pkg/controller/deployment_rolling.go:scaleDownOldMachineSetsForRollingUpdate", "pkg/controller/deployment_util.go:NewISNewReplicas", "pkg/controller/deployment_sync.go:scaleMachineSet"]}
{"id": "C101", "title": "A program works only when it may and when it has seen everything", "statement": "A replica begins to reconcile only after it was elected leader (if there is an election), the API server said that it is well and offers every kind that the program works with, and every cache that the reconciles read has been filled; it stops when it loses the lock, at most one replica of a program works at a time, and once it begins every queue that is fed has the configured number of workers, at least one.", "quantifier": "for all answers of the API server, all settings, all orders in which caches fill, locks are won and lost, and any number of replicas", "why_tests_cant": "The start-up code has no tests; which cache is filled late and which kind is missing depends on the cluster.", "anchors": ["cmd/machine-controller-manager/app/controllermanager.go:Run", "cmd/machine-controller-manager/app/controllermanager.go:StartControllers", "cmd/machine-controller-manager/app/controllermanager.go:getAvailableResources", "pkg/util/provider/app/app.go:StartControllers", "pkg/util/provider/app/app.go:getAvailableResources", "pkg/util/provider/cache/cache.go:WaitForCacheSync", "pkg/controller/controller.go:Run", "pkg/util/provider/machinecontroller/controller.go:Run"]}
{"id": "C102", "title": "The health endpoint tells whether the program works", "statement": "/healthz answers OK exactly as long as the program works or waits to be elected; a program that cannot begin to work says so or ends; and what the program finds out about the target cluster at its start (whether volume attachments can be followed) holds as long as it runs.", "quantifier": "for all executions of a replica and all answers of discovery", "why_tests_cant": "Tests of the handler set the flag themselves; that nothing sets it back while the program waits for ever is a fact about all executions.", "anchors": ["pkg/handlers/health.go:UpdateHealth", "pkg/handlers/health.go:Healthz", "cmd/machine-controller-manager/app/controllermanager.go:startHTTP", "pkg/util/provider/app/app.go:startHTTP", "pkg/util/k8sutils/helper.go:IsResourceSupported", "pkg/util/provider/machinecontroller/controller.go:NewController"]}
{"id": "C103", "title": "A set keeps its size however far its view lags", "statement": "In every execution a MachineSet has neither more machines than requested nor, by its own deletions, fewer machines than requested, however late its cache shows what it did itself and what others did; and from wherever it is, it gets to the requested number.", "quantifier": "for all executions: any interleaving of reconciles, cache updates in any order of listing, phase changes, marks, deletions by others, scaling and freezing, any failing calls, no bound on the number of machines or steps", "why_tests_cant": "The machineset tests run one reconcile on a cache filled by hand; how many machines come and go depends on how far the cache is behind in a live cluster.", "anchors": ["pkg/controller/machineset.go:reconcileClusterMachineSet", "pkg/controller/machineset.go:manageReplicas", "pkg/controller/machineset.go:getMachinesToDelete", "pkg/controller/machineset.go:prepareMachineForDeletion"]}
{"id": "C104", "title": "A Recreate rollout comes to its end", "statement": "A deployment with the Recreate strategy whose template or size was changed, forwards or back, comes to run exactly the wanted number of machines of the current template and no others: from every state that any history of edits, crashes, failing writes and reports has led to, three reconciles that find the emptied sets really empty and whose first write arrives suffice once the user edits nothing more, whatever happens in between; the end is kept; and there is always a way to it. This holds whatever strategy the deployment had before.", "quantifier": "for all histories of reconciles with any number of writes that arrive, machine starts and stops, reports, template and size edits", "why_tests_cant": "A stuck rollout shows only in a sequence of reconciles with annotations left behind by earlier ones; the tests run single reconciles on prepared sets.", "anchors": ["pkg/controller/deployment_recreate.go:rolloutRecreate", "pkg/controller/deployment_recreate.go:oldMachinesRunning", "pkg/controller/deployment_sync.go:isScalingEvent", "pkg/controller/deployment_sync.go:scale", "pkg/controller/deployment.go:reconcileClusterMachineDeployment"]}
{"id": "C105", "title": "Deleting a deployment takes everything below it along, from below", "statement": "In every execution each VM has its machine, each machine of a set has its set, and each set of the deployment has the deployment, all with the controllers' finalizer; so no level disappears while something below it is left. If a deployment is deleted and the passes over it, over its sets and over their machines succeed in turn, with any other steps in between, then in the end the deployment, its sets, the machines they had and the VMs of these are gone.", "quantifier": "all executions of passes over a deployment and its sets, VM creations and deletions, deletions and finalizer changes by others, starting with a deployment without sets", "why_tests_cant": "Tests delete one object at a time with a fake client that ignores finalizers of other levels; they never run three controllers' passes interleaved until everything is gone.", "anchors": ["pkg/controller/deployment.go:reconcileClusterMachineDeployment", "pkg/controller/deployment.go:terminateMachineSets", "pkg/controller/machineset.go:reconcileClusterMachineSet", "pkg/controller/machineset.go:terminateMachines", "pkg/util/provider/machinecontroller/machine.go:triggerDeletionFlow"]}
{"id": "C106", "title": "Writing finalizers ends, says whether it worked, and keeps others' changes", "statement": "Adding or removing the controllers' finalizer on a deployment, set or machine ends after a bounded number of calls, whatever the API server answers and others do meanwhile; it reports success only if the stored object then has (no longer has) the finalizer; and on a machine it never overwrites a change made since the machine was read.", "quantifier": "all views, stored objects, failures of single calls and changes by others between the calls", "why_tests_cant": "The retry loops are only entered after conflicts or refusals by the API server; the fake clients of the tests never refuse a finalizer on an object being deleted and never conflict.", "anchors": ["pkg/controller/deployment.go:addMachineDeploymentFinalizers", "pkg/controller/deployment.go:deleteMachineDeploymentFinalizers", "pkg/controller/deployment.go:updateMachineDeploymentFinalizers", "pkg/controller/machineset.go:addMachineSetFinalizers", "pkg/controller/machineset.go:updateMachineSetFinalizers", "pkg/util/provider/machinecontroller/machine_util.go:addMachineFinalizers", "pkg/util/provider/machinecontroller/machine_util.go:deleteMachineFinalizers"]}
{"id": "C107", "title": "A broken machine is replaced, a sound one is not", "statement": "A machine whose node has been broken longer than the health timeout, or that did not join within the creation timeout, is marked Failed, deleted together with its VM, and made up for by a new one; no machine is marked Failed for health unless its node was found broken for that long, and in a set with no surplus no machine is deleted unless it is Failed or marked by the user.", "quantifier": "all interleavings of node changes, health passes, rate limiting, passes of the MachineSet controller, user marks and terminations, with any failures of calls and writes", "why_tests_cant": "Replacement spans two controllers, the rate limit shared by a deployment and many passes; tests run single functions on fixed objects, so neither lost deletions nor outdated views nor conditions that keep changing occur in them.", "anchors": ["pkg/util/provider/machinecontroller/machine_util.go:reconcileMachineHealth", "pkg/util/provider/machinecontroller/machine_util.go:tryMarkingMachineFailed", "pkg/util/provider/machinecontroller/machine_util.go:canMarkMachineFailed", "pkg/controller/machineset.go:manageReplicas", "pkg/controller/machineset.go:prepareMachineForDeletion"]}
{"id": "C108", "title": "A scale-down that names its machines removes these and no others", "statement": "When the cluster autoscaler names machines in the trigger-deletion annotation of a MachineDeployment and lowers its size by as many in the same update, the named machines are deleted, no other machine is, and no replacement is made.", "quantifier": "all sets of machines and names, all interleavings of passes of the MachineDeployment and MachineSet controllers, phase changes and removals, any failing calls", "why_tests_cant": "Marks and size reach the MachineSet controller through different objects and caches; tests check the marking and the choice of machines separately, never what both controllers do in between.", "anchors": ["pkg/controller/deployment.go:setMachinePriorityAnnotationAndUpdateTriggeredForDeletion", "pkg/controller/deployment_sync.go:scale", "pkg/controller/machineset.go:manageReplicas", "pkg/controller/machineset.go:getMachinesToDelete"]}
{"id": "C109", "title": "A new machine becomes Running, or Failed in time", "statement": "A machine whose creation is not done becomes Running, with its finalizer, the name of its node and its VM recorded, after a bounded number of passes in which the provider and the node do their part; a machine whose VM cannot be created or whose node does not come up is Failed at the first opportunity after the creation timeout. No state of the creation is a dead end.", "quantifier": "For all stored states of a machine that is not being deleted, all creation timeouts, all sequences of passes at any times, and all answers of provider, listers and secrets.", "why_tests_cant": "Tests run single passes of the creation flow and of the health check on hand-made objects; that the passes fit together from every intermediate state, for any order of answers and times, is a statement over sequences of unbounded length.", "anchors": ["pkg/util/provider/machinecontroller/machine.go:triggerCreationFlow", "pkg/util/provider/machinecontroller/machine.go:reconcileClusterMachine", "pkg/util/provider/machinecontroller/machine_util.go:reconcileMachineHealth"]}
{"id": "C110", "title": "A MachineDeployment ends where its last change says", "statement": "Whatever a user does to a MachineDeployment with a rolling strategy - another template or size in the middle of a rollout, other budgets, pausing, rolling back - and whatever calls fail meanwhile: once it is left alone and not paused, two successful reconciles take the last change up, and after as many helpful ones as machines are to be moved all machines are requested of the set of the wanted template, in the wanted number, and none of any other; there it stays. No history leaves it stuck. A rollback makes the template of the set asked for the deployment's and changes nothing else.", "quantifier": "for all histories of changes by the user, reconciles with any failing calls, statuses reported at any time, machines that come, become available, break and go, and clean-ups of empty sets; any number of sets, any sizes and budgets", "why_tests_cant": "The tests run one reconcile of one branch (scale, roll out, roll back) on prepared sets; that the branches chosen one after the other, in any order of changes and failures, come to the wanted end is a statement over histories of unbounded length.", "anchors": ["pkg/controller/deployment.go:reconcileClusterMachineDeployment", "pkg/controller/deployment_sync.go:isScalingEvent", "pkg/controller/deployment_sync.go:scale", "pkg/controller/deployment_sync.go:getNewMachineSet", "pkg/controller/deployment_rolling.go:rolloutRolling", "pkg/controller/deployment_rollback.go:rollback"]}
{"id": "C111", "title": "A MachineDeployment ends where its last change says, however far the cache of MachineSets lags", "statement": "The deployment is read afresh at every reconcile, its MachineSets come from a cache. Whatever versions of them the cache shows - each of them any that was ever stored, or missing - sizes, names and templates stay in order; two successful reconciles that see what is stored take the user's last change up, and no reconcile on a lagging cache undoes that. From then on, while the cache shows no set that requests machines and remembers another size of the deployment (as a cache that never goes back does after one more such reconcile), the number of machines still to be moved never grows, falls with every helpful reconcile, and reaches zero: all machines are requested of the template's set, none of the others. After a restart on an older cache this fails: a set of the right size may be shrunk.", "quantifier": "all interleavings of edits, reconciles with any failing calls on any mix of past versions of the MachineSets, lagging lister answers after AlreadyExists, work and reports of the sets, deletions of empty sets", "why_tests_cant": "Tests hand the controller a fake cache that is up to date; a cache that lags by several writes, with accepted and refused updates mixed, is a history no table spells out, and there are unboundedly many.", "anchors": ["pkg/controller/deployment.go:reconcileClusterMachineDeployment", "pkg/controller/deployment_sync.go:scale", "pkg/controller/deployment_sync.go:getNewMachineSet", "pkg/controller/deployment_sync.go:scaleMachineSet", "pkg/controller/deployment_rolling.go:rolloutRolling"]}
{"id": "C112", "title": "A machine's status tells why it does not come or go", "statement": "When a call fails that the creation or the deletion of a machine needs, the machine's status says so: the last operation is Failed and its description has the text of the error (creation: also its code, and CrashLoopBackOff or Failed as phase depending on the time since creation); and the status is never called Failed without such an error, an expired time or a VM that came up under the name of an existing node.", "quantifier": "all machines, error texts, codes, answers to earlier calls, times, and all executions with failures, restarts and outdated caches", "why_tests_cant": "tests feed a few errors into single functions; that every path of both flows reports every error, and no path calls something failed without one, is a statement about all paths", "anchors": ["pkg/util/provider/machinecontroller/machine.go:triggerCreationFlow", "pkg/util/provider/machinecontroller/machine.go:initializeMachine", "pkg/util/provider/machinecontroller/machine.go:triggerDeletionFlow", "pkg/util/provider/machinecontroller/machine_util.go:machineCreateErrorHandler", "pkg/util/provider/machinecontroller/machine_util.go:updateMachineStatusAndNodeLabel", "pkg/util/provider/machinecontroller/machine_util.go:drainNode", "pkg/util/provider/machinecontroller/machine_util.go:deleteVM", "pkg/util/provider/machinecontroller/machine_util.go:deleteNodeObject"]}
{"id": "C113", "title": "A machine is looked at again in time", "statement": "Unless a panic stops the process: a machine in the cache is looked at again less than ten minutes after the last look, however often calls fail; a machine that waits for its node beyond its timeout is marked as failed within about a minute after the timeout; the stages of a deletion without errors follow each other within seconds; and the retry periods chosen for errors are kept.", "quantifier": "all executions of a key's queue with a clock, all answers of API server, listers, provider and target cluster, all failures, all delays of workers", "why_tests_cant": "Depends on every return path of two reconcile functions and on the queue over minutes; tests call one reconcile and compare one retry period, without clock or queue", "anchors": ["pkg/util/provider/machinecontroller/machine.go:reconcileClusterMachineKey", "pkg/util/provider/machinecontroller/machine.go:reconcileClusterMachine", "pkg/util/provider/machinecontroller/machine.go:reconcileClusterMachineTermination", "pkg/util/provider/machinecontroller/machine.go:triggerCreationFlow", "pkg/util/provider/machinecontroller/machine.go:triggerDeletionFlow", "pkg/util/provider/machinecontroller/machine_util.go:reconcileMachineHealth", "pkg/util/worker/worker.go:worker"]}
{"id": "C114", "title": "A deletion without errors is over in time", "statement": "When the calls of a deletion succeed, the machine object loses the controller's finalizer within eight times the time a stage may take (five seconds and the delays of cache, queue and reconcile), counted from when the deletion is seen and the node's volumes are not attached any more, and the finalizer does not come back; from a deletion already under way, or if the VM turns out to be gone, each stage may take half an hour longer.", "quantifier": "all machines, all executions of the termination queue with a clock, an API server with optimistic locking and a cache that lags behind within a limit, all successful answers, all delays within the limits", "why_tests_cant": "the time is the sum over many reconciles, some of them with outdated views and rejected writes; tests run one reconcile at a time without clock, queue or cache", "anchors": ["pkg/util/provider/machinecontroller/machine.go:reconcileClusterMachineTermination", "pkg/util/provider/machinecontroller/machine.go:triggerDeletionFlow", "pkg/util/provider/machinecontroller/machine_util.go:setMachineTerminationStatus", "pkg/util/provider/machinecontroller/machine_util.go:updateMachineStatusAndNodeLabel", "pkg/util/provider/machinecontroller/machine_util.go:drainNode", "pkg/util/provider/machinecontroller/machine_util.go:deleteNodeVolAttachments", "pkg/util/provider/machinecontroller/machine_util.go:deleteVM", "pkg/util/provider/machinecontroller/machine_util.go:deleteNodeObject", "pkg/util/provider/machinecontroller/machine_util.go:deleteMachineFinalizers"]}
{"id": "C115", "title": "The controllers leave what they read from their caches alone", "statement": "No function the machine controller runs for a key, an event or the metrics endpoint changes an object of an informer cache or anything the object points to; a worker writes only memory it has made itself and the few records that are meant to be shared. In the manager, a cached object keeps every field except for a machine's node template, machine configuration and class kind.", "quantifier": "all interleavings of any number of workers, handlers and collectors, all answers of API server and listers, all branches, all shapes of cached objects, including pointers shared between them", "why_tests_cant": "a write through a pointer into a cache shows up only if the same object is read from the cache again, in another goroutine or another reconcile; tests give each reconcile fresh objects and compare what was sent to the API server", "anchors": ["pkg/util/provider/machinecontroller/machine.go:reconcileClusterMachine", "pkg/util/provider/machinecontroller/machine_util.go:syncMachineNodeTemplates", "pkg/controller/machineset_util.go:copyMachineSetNodeTemplatesToMachines", "pkg/controller/deployment.go:reconcileClusterMachineDeployment"]}
{"id": "C116", "title": "No two goroutines use the same memory at the same time, one of them writing", "statement": "Whatever memory one worker, event handler or collector of the machine controller or of the manager writes is not read or written by another one, except for records that have a lock and are used with the lock held.", "quantifier": "all interleavings of any number of workers, handlers and collectors, all answers, all branches, all pairs of accesses of a run", "why_tests_cant": "data races need two goroutines in a particular interleaving; unit tests run one reconcile at a time, and the race detector only sees the interleavings a test happens to have", "anchors": ["pkg/util/provider/machinecontroller/machine_safety.go:reconcileClusterMachineSafetyAPIServer", "pkg/util/provider/drain/volume_attachment.go:dispatch", "pkg/controller/machineset_util.go:syncMachinesConfig", "pkg/util/provider/machinecontroller/machine.go:reconcileClusterMachine"]}
{"id": "C117", "title": "A new machine for which everything works is Running in time", "statement": "A machine that has just been created, whose VM the provider creates and initializes and whose node comes up, is Running with its finalizer, node name, provider ID and last known state recorded within a bounded time after its node is in order, however its reconciles are timed and however far the cache lags within its bound, and it stays so; on its way it is never Failed, Unknown or Terminating. This holds if that time ends before the creation timeout; a node that is in order only after the timeout can find its machine Failed for ten minutes more.", "quantifier": "For all configurations, machines, times, bounds on the lag of the cache, the delay of the worker and the length of a reconcile, all interleavings of cache updates, queue events and steps of a reconcile, and all answers a working provider and cluster can give.", "why_tests_cant": "Tests call a reconcile once on an object they have just made; how long several reconciles take together, with retries after five seconds, one minute or ten minutes, on a cache that may show old versions of the object, is a statement over timed executions of unbounded length.", "anchors": ["pkg/util/provider/machinecontroller/machine.go:reconcileClusterMachineKey", "pkg/util/provider/machinecontroller/machine.go:triggerCreationFlow", "pkg/util/provider/machinecontroller/machine_util.go:reconcileMachineHealth"]}
{"id": "C118", "title": "Marking MachineSets as tainted outlives passing failures", "statement": "Setting the mark that says the nodes of a MachineSet have been tainted, and removing it before a rollback, outlives passing failures: if a request fails or meets a conflict, it is made again until a minute is over, so that a single failure followed by a working API server ends with the mark set or removed. The calls change nothing but the mark, keep what others write at the same time, return without an error only if every set had its mark stored, make a bounded number of requests and end in time.", "quantifier": "For all sets of MachineSets, contents and versions, all interleavings with other writers, all failures of single requests (not carried out, or carried out without an answer), and all durations.", "why_tests_cant": "The repo's tests use a fake client that never fails between a read and an update and return at once; what a retry loop does after a failed attempt depends on what the typed client returns together with an error, and the bounds are over interleavings and times.", "anchors": ["pkg/controller/deployment_rolling.go:taintNodesBackingMachineSets", "pkg/controller/deployment_rollback.go:removeTaintNodesBackingMachineSet"]}
{"id": "C119", "title": "No answer of a driver brings the machine controller down", "statement": "Whatever a driver, the API server or a lister answers, a reconcile of the machine controller ends by itself and does not crash the process, in which all other machines are looked after as well; a crash does not repeat itself after every restart without the machine telling why.", "quantifier": "all machines, all answers including responses and errors in any combination, all points of a reconcile, all histories of one machine name", "why_tests_cant": "the fake driver of the tests always gives a response with a success, and with every error but NotFound; the combinations that crash are never returned", "anchors": ["pkg/util/provider/machinecontroller/machine.go:triggerCreationFlow", "pkg/util/provider/machinecontroller/machine.go:initializeMachine", "pkg/util/provider/machinecontroller/machine_util.go:getNodeName", "pkg/util/provider/machinecontroller/machine_util.go:deleteVM", "pkg/util/provider/machinecontroller/machine_safety.go:checkMachineClass", "pkg/util/provider/drain/drain.go:getVolumeIDFromDriver", "pkg/util/provider/driver/driver.go:Driver"]}
{"id": "C120", "title": "Every flag does what it says", "statement": "Each flag on the command line of the two programs sets the one setting that it names to the value given last, every other setting keeps its default, a command line with an unknown flag or an unreadable value is not run; what a flag sets arrives at the part of the program that the flag is for and nowhere else; and no flag is without effect or accepted with a value the program cannot work with.", "quantifier": "all command lines, both programs, all flags and values", "why_tests_cant": "All command lines and combinations of settings; no test starts a program with flags.", "anchors": ["pkg/util/provider/app/options/options.go:AddFlags", "cmd/machine-controller-manager/app/options/options.go:AddFlags", "cmd/machine-controller-manager/app/controllermanager.go:StartControllers", "pkg/util/provider/app/app.go:StartControllers", "pkg/util/client/leaderelectionconfig/config.go:BindFlags"]}
{"id": "C121", "title": "A drain keeps to its time", "statement": "A drain has returned soon after its time-out at the latest, whatever the API server, the pods, their budgets and their volumes do; a single pod is not waited for longer than its grace period, the time-outs for its volumes and fixed pauses allow; a pod that leaves within its grace period is no failure; a forced drain does not wait; a pod that a budget protects all the time is deleted by force once the allowed number of evictions has been tried; and once the drain time-out has passed since the deletion of the machine, it is only drained by force.", "quantifier": "all time-outs, retries, pods, and answers over time", "why_tests_cant": "All timings of answers, budgets, volumes and deadlines; the tests of the drain run with time-outs of milliseconds and few pods.", "anchors": ["pkg/util/provider/drain/drain.go:218-246", "pkg/util/provider/drain/drain.go:490-526", "pkg/util/provider/drain/drain.go:628-821", "pkg/util/provider/drain/drain.go:861-986", "pkg/util/provider/drain/drain.go:1025-1121", "pkg/util/provider/machinecontroller/machine_util.go:1065"]}
