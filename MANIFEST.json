{"claims": [
{"property": "C01", "status": "proved", "theorems": ["C01_budget", "C01_budget_monotone", "C01_min_available", "C01_min_available_other", "C01_no_budget", "C01_unreadable_budget"], "note": ""},
{"property": "C02", "status": "partial", "theorems": ["C02_surge_limit_partial", "C02_created_partial", "C02_surge_limit_refuted"], "note": "Holds when reported counts have caught up with requested ones; fails in the reconcile that creates the new set (refuted theorem)."},
{"property": "C03", "status": "proved", "theorems": ["C03_new_set_bounded", "C03_new_reported", "C03_created"], "note": ""},
{"property": "C04", "status": "partial", "theorems": ["C04_availability_floor_partial", "C04_availability_floor_refuted"], "note": "Holds when no old set reports more available machines than requested; fails with a lagging report next to another unhealthy set (refuted theorem)."},
{"property": "C05", "status": "proved", "theorems": ["C05_rollout_finishes", "C05_old_reported"], "note": "Rounds of one rolling reconcile followed by every set settling at its requested size."},
{"property": "C06", "status": "partial", "theorems": ["C06_scale_down_partial", "C06_shares", "C06_int32", "C06_scale_down_refuted", "C06_stale_record_grows_refuted", "C06_overflow_refuted"], "note": "Proportionality, bounds and exact total up to the largest set hitting zero, for recorded sizes not below the new allowed size and products within int32. Exactness, stale records and overflow are refuted."},
{"property": "C07", "status": "partial", "theorems": ["C07_scale_up_partial", "C07_scale_up_refuted", "C07_saturated", "C07_single"], "note": "Direction, old sizes, saturation and single-set cases proved; 'never more than replicas' refuted."},
{"property": "C08", "status": "partial", "theorems": ["C08_rollout_step", "C08_recreate_no_overlap_partial", "C08_recreate_no_overlap_refuted"], "note": "One rollout step: all inputs. Histories: all, as long as no existing MachineSet has the template switched to, with an up-to-date machine cache and not paused. Switching back to an old template overlaps (refuted theorem)."},
{"property": "C09", "status": "proved", "theorems": ["C09_paused", "C09_pause_freezes_refuted"], "note": "A paused rollout may still grow the newest set up to the surge (refuted stronger reading). The statement holds as given; the refuted theorem goes beyond it."},
{"property": "C10", "status": "proved", "theorems": ["C10_revisions_grow", "C10_unreadable_revision_refuted", "C10_history_kept", "C10_history_refuted"], "note": "All histories of fewer than 2^63-1 steps that start without MachineSets. Numbers edited from outside can break it (refuted theorem); the history annotation can list the number still in use (refuted theorem). The statement holds as given; the refuted theorem goes beyond it."},
{"property": "C11", "status": "proved", "theorems": ["C11_rollback_target", "C11_second_highest_unique", "C11_failed_write"], "note": "All states with distinct MachineSets, including unreadable revisions."},
{"property": "C12", "status": "proved", "theorems": ["C12_cleanup", "C12_cleanup_safe", "C12_negative_limit_refuted"], "note": "Complete description for limits >= 0, safety for all limits; a negative limit panics. The statement holds as given; the refuted theorem goes beyond it."},
{"property": "C13", "status": "partial", "theorems": ["C13_set", "C13_set_ms", "C13_transition_time", "C13_idempotent", "C13_remove", "C13_sequences", "C13_progressing_time", "C13_duplicates_refuted", "C13_transition_time_ms_refuted"], "note": "All lists without duplicate types and all operation sequences. Lists with duplicates, and the transition time on MachineSets, are refuted."},
{"property": "C14", "status": "partial", "theorems": ["C14_complete", "C14_deadline", "C14_timed_out_stays", "C14_stuck_is_reported", "C14_paused", "C14_lookup", "C14_complete_is_sticky_refuted", "C14_second_creation_refuted"], "note": "Reporting is exact for rollouts not yet reported complete, for all histories. Completeness once reported stays when machines are lost or a rollback starts (refuted); a second set creation does not renew the deadline (refuted)."},
{"property": "C15", "status": "proved", "theorems": ["C15_one_reconcile", "C15_reaches_size"], "note": "Convergence for up-to-date views and successful calls; the decision of one reconcile for all views."},
{"property": "C16", "status": "partial", "theorems": ["C16_no_overcreation_partial", "C16_lagging_view_refuted"], "note": "Holds for views that miss no serving machine; fails with a lagging cache because the expectations gate is disabled (refuted theorem)."},
{"property": "C17", "status": "proved", "theorems": ["C17_frozen_plan", "C17_frozen_creates_nothing"], "note": "All histories. The freeze condition alone is not looked at by the code; only the label is."},
{"property": "C18", "status": "proved", "theorems": ["C18_deletion_order", "C18_any_sort", "C18_order", "C18_priority", "C18_unlisted_phase_refuted"], "note": "All machine lists and every sorting function. Phases of in-place updates are not ranked (refuted theorem). The statement holds as given; the refuted theorem goes beyond it."},
{"property": "C19", "status": "proved", "theorems": ["C19_slow_start", "C19_batches"], "note": "All counts and failure patterns."},
{"property": "C20", "status": "partial", "theorems": ["C20_claimed", "C20_claims_all", "C20_failure_reported", "C20_others_untouched_partial", "C20_taken_over_refuted", "C20_never_released_refuted", "C20_references_lost_refuted"], "note": "Claiming for all views and faults; others untouched with a current view. Release never releases and a lagging view takes over a child of another controller, both because the patches are JSON merge patches (refuted theorems)."},
{"property": "C21", "status": "partial", "theorems": ["C21_set_outlives_partial", "C21_all_asked", "C21_others_unharmed", "C21_goes_on", "C21_relabelled_refuted", "C21_lagging_view_refuted", "C21_deployment_refuted"], "note": "MachineSets: all histories with current views. Lagging views, relabelled machines and MachineDeployments whose finalizer could not be added are refuted."},
{"property": "C22", "status": "partial", "theorems": ["C22_creations", "C22_deletions", "C22_nothing_expected", "C22_no_creation_missed_partial", "C22_ungated_refuted"], "note": "All call histories. That no created machine is missed holds for reconciles that ask for satisfied expectations first; the code has that line commented out (refuted theorem)."},
{"property": "C23", "status": "partial", "theorems": ["C23_frozen_only_above", "C23_unfrozen_only_below", "C23_between_nothing", "C23_gap", "C23_all_handled_partial", "C23_recreate_refuted", "C23_bad_surge_refuted", "C23_no_gap_refuted", "C23_deployment_follows_partial", "C23_lookup_error_refuted", "C23_request_deployments", "C23_request_sets", "C23_request_lost_refuted", "C23_deployment_frozen", "C23_deployment_unfrozen"], "note": "Labels on MachineSets: all views, failures and histories; the deployment follows its set; requests to unfreeze are carried out and used up. Completeness of the pass needs a positive gap and readable maxSurge; the Recreate strategy crashes it, an unreadable maxSurge stops it, a zero gap alternates, a lookup error unfreezes the deployment, a failing call loses a request (refuted theorems)."},
{"property": "C24", "status": "partial", "theorems": ["C24_finalizer_last_partial", "C24_name_reused_refuted"], "note": "All interleavings of both queues, stale caches, lost answers, crashes, edits by others, any answers of provider and API servers, for one object under the name. A machine re-created under the same name loses its finalizer without any deletion (refuted theorem)."},
{"property": "C25", "status": "partial", "theorems": ["C25_drained_first_partial", "C25_node_after_vm_partial", "C25_forced_when", "C25_recreated_refuted"], "note": "Every provider deletion call and node deletion in every such history; the reasons for a forced drain are exact. One object per name (see C59 for re-created ones)."},
{"property": "C26", "status": "partial", "theorems": ["C26_one_at_a_time", "C26_count_partial", "C26_adopts", "C26_not_after_label", "C26_twice_refuted", "C26_unimplemented_refuted"], "note": "Never two VMs at a time and creation only if there is none, for all histories with a truthful provider, including crashes and re-created objects; found VMs are adopted; no creation once the node label is visible. 'At most one ever' fails when a VM comes up under an existing node's name, and two VMs at once are possible with a provider that does not implement the status call (refuted theorems)."},
{"property": "C27", "status": "partial", "theorems": ["C27_spared_partial", "C27_deletes_when", "C27_collected", "C27_stale_cache_refuted", "C27_unrecorded_refuted"], "note": "Orphans of a deleted machine are all collected; a VM recorded in an up-to-date cache is spared. With a stale cache, or before the ID is recorded, the VM of a machine in phase Failed is taken away (refuted theorems)."},
{"property": "C28", "status": "partial", "theorems": ["C28_phases_partial", "C28_failed_after_timeout", "C28_conditions_recorded", "C28_healthy_runs", "C28_unhealthy_noticed", "C28_timeout_enforced", "C28_brought_back_refuted", "C28_never_ready_refuted", "C28_said", "C28_failed_said"], "note": "Phase transitions, thresholds, timing and the texts that go with them proved; two stronger readings refuted: a Failed or Terminating machine without deletion timestamp is brought back to Running, and a node that never reported Ready counts as healthy."},
{"property": "C29", "status": "partial", "theorems": ["C29_one_at_a_time_partial", "C29_one_per_label_partial", "C29_alone_partial", "C29_only_unknown_partial", "C29_slow_cache_refuted", "C29_lost_answer_refuted", "C29_cleaned_permit_refuted", "C29_gap_refuted", "C29_no_label_refuted", "C29_no_label_no_limit", "C29_shared_label_refuted", "C29_marks_when", "C29_wait_over_when"], "note": "Any number of workers, machines and MachineDeployments, on top of the model of the permits. Proved for machines that have the label \"name\", when the clean-up of permits disturbs nobody, writes are acknowledged, and the cache is at most ~11 s behind. Refuted otherwise: no label (no limit at all), slow cache, lost answer, permit cleaned up under a waiting worker; and in the gap between the removal of the old machine and the creation of its successor. MachineDeployments with equal labels share one limit."},
{"property": "C30", "status": "partial", "theorems": ["C30_at_most_partial", "C30_released_partial", "C30_served_partial", "C30_picks_unheld_partial", "C30_two_holders_refuted", "C30_held_cleaned_refuted", "C30_foreign_release_refuted", "C30_used_is_stale_refuted", "C30_close_panics_refuted", "C30_fresh_kept", "C30_picks_when", "C30_closed_partial", "C30_deleted_partial", "C30_delete_twice_refuted"], "note": "Proved for histories in which the clean-up deletes a key only while nobody uses it and without DeletePermits and Close (at most n holders, release returns the permit, waiters are served, no panic). Refuted otherwise: the clean-up invalidates a held or awaited permit so that two hold it, the first holder then releases the second's permit, an entry is stale one hour after registration however often used, Close panics a waiting TryPermit."},
{"property": "C31", "status": "partial", "theorems": ["C31_freezes_partial", "C31_does_freeze", "C31_frozen_no_change_partial", "C31_unfreezes", "C31_goes_on", "C31_not_continuous_refuted", "C31_in_flight_refuted", "C31_resets_terminating_refuted", "C31_frozen_for_ever_refuted"], "note": "Unfreezing proved when all calls go through; no change while frozen proved for machines without a reconcile under way. Refuted: the outage need not be continuous, in-flight reconciles write while frozen, the check resets machines that are Terminating meanwhile, and after sixteen failed attempts the check is dropped and the controller stays frozen for ever."},
{"property": "C32", "status": "partial", "theorems": ["C32_in_line_partial", "C32_second_writes_nothing_partial", "C32_time_added_refuted", "C32_record_key_refuted", "C32_bad_record_refuted", "C32_matching_key_kept_refuted", "C32_double_taint_refuted"], "note": "All templates, nodes and readable records, if the template does not use the record's key, has no key and effect twice and no TimeAdded. Each of these limits is shown necessary by a refuted theorem, as are an unreadable record and a key the node already had."},
{"property": "C33", "status": "partial", "theorems": ["C33_add_partial", "C33_remove", "C33_text", "C33_parse_list", "C33_parse_asks", "C33_node_add_partial", "C33_node_remove_partial", "C33_duplicates_stay_refuted", "C33_parse_panics_refuted", "C33_parse_panics_exactly", "C33_empty_text_refuted", "C33_report_refuted", "C33_conflict_not_retried_refuted", "C33_stale_success_refuted", "C33_remove_key", "C33_difference", "C33_reorganize", "C33_report_partial"], "note": "Lists, text and calls through the API server. Duplicates in the list stay, 'key=value' panics the reader, conflicts are never retried, and a stale read counts as success (refuted theorems)."},
{"property": "C34", "status": "partial", "theorems": ["C34_add", "C34_remove", "C34_condition", "C34_no_condition", "C34_not_ours", "C34_round_trip_partial", "C34_reconcile", "C34_users_annotation_lost_refuted", "C34_users_value_overwritten_refuted", "C34_switched_off_refuted"], "note": "Edits for all maps and condition lists; the autoscaler annotation over all event histories on nodes where the user had not set it. A user's own annotation is lost (refuted theorem)."},
{"property": "C35", "status": "partial", "theorems": ["C35_round_trip_partial", "C35_only_balanced", "C35_unbalanced_refuted", "C35_trailing_brackets_refuted", "C35_names"], "note": "Round trip for all codes and messages with balanced brackets; unbalanced or trailing brackets lose the code (refuted theorems)."},
{"property": "C36", "status": "proved", "theorems": ["C36_distance", "C36_symmetric", "C36_skipped", "C36_written"], "note": "All pairs of texts: the edit distance is the real one and writes are skipped exactly when the stated conditions hold."},
{"property": "C37", "status": "partial", "theorems": ["C37_filled_partial", "C37_none_left_partial", "C37_replace_exact", "C37_pieces", "C37_encoding", "C37_placeholders", "C37_succeeds", "C37_panics_exactly", "C37_mixed_refuted"], "note": "Replacement is exact and complete for each placeholder's spelling in use, for all strings (C37_replace_exact, C37_filled_partial). Refuted: with both spellings of a placeholder present only the plain one is replaced. Names of fewer than five bytes make the controller panic (C37_panics_exactly)."},
{"property": "C38", "status": "partial", "theorems": ["C38_different_partial", "C38_form", "C38_same_exactly", "C38_stable", "C38_usable", "C38_random", "C38_random_total", "C38_shared_refuted", "C38_taken_away_refuted", "C38_expiry_refuted"], "note": "Tokens differ whenever the three bytes of the name that are used differ (C38_different_partial, C38_same_exactly). Refuted in general: the last two bytes of a name are ignored, so machines can share a token, lose it when the other joins, or receive one about to expire."},
{"property": "C39", "status": "partial", "theorems": ["C39_ends", "C39_one_result", "C39_returns_partial", "C39_panics_exactly", "C39_calls_without", "C39_calls_with", "C39_hangs", "C39_hang_refuted", "C39_retries"], "note": "Every goroutine ends, one result per pod, the collecting loop returns, and the panic (a pod without priority) is characterised exactly. Refuted for zero effective retries: then the drain hangs for ever if any pod has a claim (C39_hangs). Goroutines are sequential traces; the order in which their results arrive is arbitrary."},
{"property": "C40", "status": "partial", "theorems": ["C40_named", "C40_exact", "C40_fatal", "C40_groups", "C40_only", "C40_each_partial", "C40_other_node_refuted"], "note": "Selection proved exactly for the options the controller uses and for all others; groups partition; calls go to selected pods only; every pod is called unless the drain is cut short. Refuted: calls carry no UID, so a re-created pod of the same name on another node is hit."},
{"property": "C41", "status": "partial", "theorems": ["C41_unlisted", "C41_cordoned", "C41_success_partial", "C41_gone_exactly", "C41_timeout_refuted", "C41_node_gone_refuted", "C41_failed_get_refuted", "C41_cordon_refuted"], "note": "Success implies evicted or gone unless the drain's time ran out or the node object went; refuted for these two, for failing Gets taken for the end of a pod, and for the cordon."},
{"property": "C42", "status": "partial", "theorems": ["C42_exact", "C42_any_order", "C42_pods_partial", "C42_names", "C42_twice_refuted", "C42_daemonset_refuted"], "note": "Exact: kept in order iff mentioned once over all pods to be evicted; equivalent to not shared if no pod mentions a volume twice (partial). Refuted: claim mounted twice; DaemonSet pods are not counted."},
{"property": "C43", "status": "partial", "theorems": ["C43_panics", "C43_in_order", "C43_all", "C43_distribution", "C43_none_after", "C43_taken_in", "C43_inline_refuted", "C43_lost_refuted"], "note": "In-order delivery, no loss within the buffer of 20, none after unregistering and no send on a closed channel are proved for all interleavings. Findings: the 21st unread event is lost; an attachment without a volume name panics the program while somebody waits."},
{"property": "C44", "status": "partial", "theorems": ["C44_pass", "C44_removed_only_partial", "C44_stays_partial", "C44_locked_partial", "C44_others_kept_partial", "C44_versions", "C44_edit_lost_refuted", "C44_edit_undone_refuted", "C44_unprotected_refuted", "C44_others_do"], "note": "A pass that sees current caches adds or removes the finalizer rightly; under the stated conditions on the window between the cache read and the write it is removed only when nothing refers to the class and finalizers of others survive. Refuted without them: edits of others between the cache read and the write are lost or undone, and a machine that starts to refer during removal is left with an unprotected class."},
{"property": "C45", "status": "partial", "theorems": ["C45_recognised", "C45_only_partial", "C45_oldest", "C45_none", "C45_any_order", "C45_any_sort", "C45_olds", "C45_created", "C45_rollback", "C45_no_rollback_partial", "C45_empty_value_refuted", "C45_rollback_skipped_refuted", "C45_symmetric_refuted"], "note": "Equal templates always recognised; converse exact unless a label has an empty value or only the second argument carries the hash label (partial); choice is the oldest and independent of order and of the sort. Refuted: empty label values, rollback of an added label skipped as \"same template\", comparison not symmetric. Metadata other than labels and annotations, node template and configuration are opaque texts."},
{"property": "C46", "status": "partial", "theorems": ["C46_accepted_exactly", "C46_panics_exactly", "C46_rolled_exactly", "C46_set_accepted", "C46_rolling_partial", "C46_recreate_partial", "C46_in_place_refuted", "C46_in_place_always", "C46_negative_surge_refuted", "C46_negative_unavailable_refuted", "C46_selector_refuted", "C46_rolling_runs_partial"], "note": "Acceptance characterised exactly; accepted Rolling updates with a budget that is not negative finish in every execution with enough helpful reconciles and are never stuck; accepted Recreate updates finish if sets settle (partial). Refuted: InPlaceUpdate accepted but never rolled out, negative budgets accepted and stuck, selector with empty value, nil selector panics. matchExpressions are not looked at by validation and not modelled."},
{"property": "C47", "status": "partial", "theorems": ["C47_override", "C47_retries_bounded", "C47_at_least_one_partial", "C47_no_attempt_refuted"], "note": "Override order and bounds proved; a drain timeout below 20 seconds leaves no eviction attempt (refuted theorem)."},
{"property": "C48", "status": "proved", "theorems": ["C48_retries", "C48_exclusive", "C48_not_lost"], "note": "Any number of workers and keys. The work queue of client-go (not in /repo) is modelled by its documented behaviour."},
{"property": "C49", "status": "proved", "theorems": ["C49_machineset_counts", "C49_deployment_counts"], "note": "All machine and MachineSet lists; int32 overflow not modelled."},
{"property": "C50", "status": "partial", "theorems": ["C50_removed_partial", "C50_quickly", "C50_rounds_are_steps", "C50_waits_refuted"], "note": "From every stage and description eight successful reconciles half an hour apart remove the finalizer; from a fresh deletion eight at any times. Texts of names and errors must not contain the capital letters the stage markers begin with. A status resembling the last one is not written, which can hold up deletion for half an hour (refuted theorem)."},
{"property": "C51", "status": "partial", "theorems": ["C51_size_change_handled_once_partial", "C51_recreate_stuck_refuted"], "note": "Holds for rolling updates, for at most one requesting set and for saturated ones; Recreate with two requesting sets gets stuck (refuted theorem)."},
{"property": "C52", "status": "partial", "theorems": ["C52_failed_summaries_partial", "C52_stale_summary_refuted", "C52_owner_leak_refuted"], "note": "Exact for machines with a controller and at least one failure; stale summaries and the owner leak are refuted."},
{"property": "C53", "status": "proved", "theorems": ["C53_published", "C53_quiet"], "note": ""},
{"property": "C54", "status": "proved", "theorems": ["C54_available_condition", "C54_available_means"], "note": ""},
{"property": "C55", "status": "partial", "theorems": ["C55_marked_retried_partial", "C55_lost_deletion_refuted", "C55_failed_forgotten_refuted"], "note": "Every pass asks for the deletion of failed and marked machines; but a failed or surplus machine whose delete call failed is shown as Terminating and forgotten (refuted theorems)."},
{"property": "C56", "status": "partial", "theorems": ["C56_deletable", "C56_empty_selector_refuted"], "note": "Fails for MachineDeployments with an empty selector (refuted theorem)."},
{"property": "C57", "status": "partial", "theorems": ["C57_other_finalizers_partial", "C57_lost_edit_refuted"], "note": "Holds without concurrent edits during the reconcile (refuted otherwise)."},
{"property": "C58", "status": "partial", "theorems": ["C58_accepted_selector_partial", "C58_runaway_refuted"], "note": "Holds for selectors without empty values; an empty value leads to unbounded creation (refuted theorem)."},
{"property": "C59", "status": "partial", "theorems": ["C59_only_when_requested_partial", "C59_stale_node_partial", "C59_recreated_refuted", "C59_panic_refuted"], "note": "Proved for one object under the name; a machine re-created under the same name is terminated although nobody asked, and if it has a node the process panics (refuted theorems)."},
{"property": "C60", "status": "partial", "theorems": ["C60_code_from_text_partial", "C60_code_by_name", "C60_plain_text", "C60_foreign_error_refuted"], "note": "Texts with fewer than two bracket groups carry no code; a foreign text with two bracket groups is read as a code (refuted theorem)."},
{"property": "C61", "status": "partial", "theorems": ["C61_last_known_state_partial", "C61_state_lost_refuted", "C61_state_erased_refuted"], "note": "Kept whenever the status is written; the suppression of similar statuses drops it, and a deletion call that returns no state erases it (refuted theorems)."},
{"property": "C62", "status": "partial", "theorems": ["C62_all_tainted_partial", "C62_all_untainted_partial", "C62_each_alone", "C62_marked_not_tainted_refuted", "C62_late_node_refuted", "C62_stays_tainted_refuted"], "note": "Holds when every node call goes through and every machine has its node label; a failed node call, a late node and a failed read on rollback break it for good (refuted theorems)."},
{"property": "C63", "status": "proved", "theorems": ["C63_marks", "C63_foreign_machine_refuted"], "note": "Proved for all lists, machines and failures; that only machines of this deployment are touched is refuted. The statement holds as given; the refuted theorem goes beyond it."},
{"property": "C65", "status": "partial", "theorems": ["C65_pass", "C65_removed_only_partial", "C65_queued_partial", "C65_queued_add_partial", "C65_credentials_only_refuted", "C65_other_namespace_refuted", "C65_held_exactly"], "note": "A pass that sees current caches is right, removal only when no class refers under the stated window conditions, secretRef changes queue the secret. Refuted: a class with only a credentialsSecretRef does not queue its secret; secrets are matched by name across namespaces."},
{"property": "C66", "status": "partial", "theorems": ["C66_exactly", "C66_no_handler", "C66_noticed_partial", "C66_unnoticed_refuted"], "note": "Exact characterisation of the end of the wait; noticed as long as the waiter never lags by more than 20 events (partial). Refuted without: events are not read during the wait for detachment, so the re-attachment can be dropped."},
{"property": "C67", "status": "proved", "theorems": ["C67_waits", "C67_detached_exactly", "C67_order", "C67_priority", "C67_pattern_refuted"], "note": "Proved for the goroutine of pods with claims; the match of volume IDs is a parameter (regexp in the code), and for pattern matches a detached volume may hold up the drain (refuted claim). The statement holds as given; the refuted theorem goes beyond it."},
{"property": "C68", "status": "partial", "theorems": ["C68_passed", "C68_created", "C68_selects", "C68_apart", "C68_names", "C68_wrong_set_refuted", "C68_not_counted_refuted"], "note": "The hash function is a parameter, so every collision is covered. Created under the first free name; selector, owner and template proved; names agree exactly if the first five decimal digits of the hashes agree. Refuted: an old set lacking one label is used as the new one; a set unknown to the lister blocks without being counted."},
{"property": "C69", "status": "partial", "theorems": ["C69_give_up_as_new_available_partial", "C69_give_up_as_new_available_refuted"], "note": "Proved for one pass with any failing API calls when no old set reports more available machines than it requests; refuted when such a report lags."},
{"property": "C70", "status": "partial", "theorems": ["C70_failure_condition_partial", "C70_failure_condition_refuted"], "note": "Presence, first reason and message, and other conditions proved; refuted: a condition that is already there keeps the reason and message of an earlier failure, and the reason is empty when counts agree."},
{"property": "C71", "status": "partial", "theorems": ["C71_failures_surface_partial", "C71_failure_message_refuted"], "note": "Presence, status, reason and preference for the new set proved; refuted for the message, which stays while status and reason stay."},
{"property": "C72", "status": "partial", "theorems": ["C72_machines_follow_partial", "C72_failure_noticed", "C72_machines_follow_refuted", "C72_success_written"], "note": "Proved for runs in which no update call is refused for another reason than a conflict, and with keys that are retried after every error; refuted otherwise: the change is written into the cached machine before the call, so a refused call is never tried again."},
{"property": "C73", "status": "proved", "theorems": ["C73_others_kept"], "note": "Proved for the three copying loops of the reconcile with the informer cache and the API server's version check as modelled."},
{"property": "C74", "status": "partial", "theorems": ["C74_machine_wakes_sets_partial", "C74_no_others", "C74_invalid_selector_refuted", "C74_hidden_move_refuted"], "note": "Proved except for adoptions while a MachineSet of the namespace has an invalid selector, and for owner changes reported together with a deletion; both refuted."},
{"property": "C75", "status": "partial", "theorems": ["C75_set_wakes_deployments_partial", "C75_no_others", "C75_own_key", "C75_read_fails_refuted"], "note": "Proved for successful reads of the owner and valid selectors; refuted when the read fails: the event is lost."},
{"property": "C76", "status": "partial", "theorems": ["C76_last_machine_partial", "C76_only_last", "C76_last_machine_refuted"], "note": "The handler written for this does it; refuted for the controller, which registers another handler that drops machines."},
{"property": "C77", "status": "partial", "theorems": ["C77_creations", "C77_deletions", "C77_deletions_counted", "C77_creation_missed_refuted"], "note": "Proved; a machine that first shows up as being deleted is not counted as created (refuted)."},
{"property": "C78", "status": "partial", "theorems": ["C78_added_partial", "C78_trigger_partial", "C78_updated_partial", "C78_deleted_partial", "C78_no_others", "C78_two_machines_refuted", "C78_trigger_on_add_refuted", "C78_delete_fails_refuted"], "note": "Exact for one machine per node and condition types given once; several machines with the same node label are never woken, the request to delete is ignored when the node is first seen, and a failed delete call also loses the wake-up (refuted)."},
{"property": "C79", "status": "partial", "theorems": ["C79_not_forgotten_partial", "C79_quiet_partial", "C79_gone", "C79_replaced_refuted"], "note": "Invariant for all histories in which a request for deletion changes the generation; a machine replaced unseen by one of the same generation is lost (refuted)."},
{"property": "C80", "status": "partial", "theorems": ["C80_deleted_partial", "C80_out_of_range", "C80_panic_refuted", "C80_class_missed_refuted"], "note": "Proved for deletions seen as events; a tombstone makes deleteMachineToSafety panic and the class is not queued (refuted)."},
{"property": "C81", "status": "partial", "theorems": ["C81_one_worker_partial", "C81_class_twice_refuted"], "note": "Per key only; events of machines queue a class by name, its own events by namespace and name, so two workers can have it at once (refuted)."},
{"property": "C64", "status": "partial", "theorems": ["C64_marks_partial", "C64_no_others", "C64_blocked_refuted"], "note": "Proved for passes in which no node update fails, with what is never done proved in general; refuted beyond: one failing update keeps the nodes after it unmarked."},
{"property": "C82", "status": "partial", "theorems": ["C82_orphans_partial", "C82_no_others", "C82_goes_on", "C82_blocked_refuted", "C82_repeats"], "note": "Exactness proved for classes after which none before failed; that nothing else is deleted, that nodes are checked and the pass is queued again proved whatever fails; refuted: a class that cannot be listed blocks all after it."},
{"property": "C83", "status": "partial", "theorems": ["C83_data_partial", "C83_missing_refuted", "C83_panic_refuted"], "note": "The union proved for secrets that are found; refuted: a missing secret counts as empty, and another lookup error panics because the log call reads the shadowed nil result."},
{"property": "C84", "status": "proved", "theorems": ["C84_class", "C84_accepted_exactly"], "note": "Proved in full for the checks of ValidateMachineClass."},
{"property": "C85", "status": "partial", "theorems": ["C85_follows_partial", "C85_nothing_else", "C85_failed", "C85_created_partial", "C85_revision_shown", "C85_sizes_recorded", "C85_follows_refuted"], "note": "Proved for readable revisions and non-empty annotation values (C85_follows_partial, C85_created_partial); without these, and for annotations removed from the deployment, refuted (C85_follows_refuted)."},
{"property": "C86", "status": "partial", "theorems": ["C86_quiet", "C86_history", "C86_history_refuted"], "note": "C86_quiet and C86_history hold in full; C86_history_refuted: one pass that copies several settings notes the current revision up to three times."},
{"property": "C87", "status": "partial", "theorems": ["C87_rollback", "C87_no_copy", "C87_requests_refuted"], "note": "Lookup of each annotation after a rollback proved; that pending requests survive is refuted for the trigger-deletion annotation (C87_requests_refuted)."},
{"property": "C88", "status": "partial", "theorems": ["C88_order_partial", "C88_only_label", "C88_settles", "C88_fits", "C88_orphans_refuted", "C88_both", "C88_machines"], "note": "Order of the writes, their extent and the fit with the template are proved for the machines of the list that are neither Failed nor Terminating (C88_order_partial); the others are orphaned (C88_orphans_refuted)."},
{"property": "C89", "status": "partial", "theorems": ["C89_no_crash_partial", "C89_crash_refuted"], "note": "Proved if the set has a selector and is still in the cache in the last step (C89_no_crash_partial); otherwise refuted (C89_crash_refuted)."},
{"property": "C90", "status": "partial", "theorems": ["C90_labelled_partial", "C90_all_sets", "C90_calls", "C90_blocked_refuted"], "note": "Proved without failures (C90_labelled_partial); that a set does not hold up the others is refuted (C90_blocked_refuted)."},
{"property": "C91", "status": "partial", "theorems": ["C91_annotate", "C91_deannotate", "C91_condition", "C91_undisturbed", "C91_never_retried_refuted", "C91_stale_read_refuted", "C91_stale_success_refuted"], "note": "That nothing is lost and what success and errors mean is proved for all histories; retrying does not happen (C91_never_retried_refuted), and success may rest on a stale read (C91_stale_success_refuted)."},
{"property": "C92", "status": "partial", "theorems": ["C92_annotates_partial", "C92_cleans_partial", "C92_cleans_through", "C92_when", "C92_unprotected_refuted", "C92_gap_refuted", "C92_clean_up_blocked_refuted"], "note": "Proved for nodes whose own calls are undisturbed, whatever happens at other nodes (C92_annotates_partial, C92_cleans_partial, C92_cleans_through, C92_when); not in full: C92_gap_refuted, C92_unprotected_refuted, C92_clean_up_blocked_refuted."},
{"property": "C93", "status": "partial", "theorems": ["C93_announced", "C93_reason", "C93_undisturbed", "C93_reason_kept", "C93_unhealthy_refuted", "C93_vanished_refuted", "C93_not_announced"], "note": "The write, its extent and the cause by phase are proved; failed machines are never announced as unhealthy in any history (C93_unhealthy_refuted), and a vanished node is an error (C93_vanished_refuted)."},
{"property": "C94", "status": "proved", "theorems": ["C94_claims", "C94_no_claims", "C94_budget_first", "C94_forced", "C94_start", "C94_hopeless", "C94_hopeless_no_claims", "C94_reported", "C94_deleted_refuted"], "note": "A deletion past the budget comes only after exactly the number of retries of refused evictions, hopeless budgets are reported exactly when they are; refuted that budgets hold for good in a drain that is not forced. The statement holds as given; the refuted theorem goes beyond it."},
{"property": "C95", "status": "partial", "theorems": ["C95_status", "C95_recorded", "C95_records", "C95_vm_created", "C95_initialized", "C95_foreign_node", "C95_create_failure_reported", "C95_status_failure_reported", "C95_init_failure_reported", "C95_pending", "C95_consistent", "C95_lookup", "C95_id_lost_refuted", "C95_uninitialized_refuted", "C95_vm_gone_refuted"], "note": "Proved for every machine and every answer: truth of each status, what is recorded, when a VM is created, initialized and deleted, that failures are reported, and consistency of all stored statuses in every history. Refuted: a recorded provider ID can be lost, Pending with a VM that was never initialized or is gone."},
{"property": "C96", "status": "partial", "theorems": ["C96_true", "C96_observed_partial", "C96_settled_partial", "C96_succeeds", "C96_quiet", "C96_recreated_refuted", "C96_condition_lost_refuted", "C96_tries_again"], "note": "Proved for every history: truth of each write, that a reconcile whose calls succeed stores the result, silence when nothing changed. The observed generation and the settled counts are proved for histories in which no set is re-created under the name during a reconcile (partial); refuted otherwise, and a condition written by others can be lost."},
{"property": "C97", "status": "partial", "theorems": ["C97_marked", "C97_ends", "C97_endless_refuted", "C97_wrong_machine_refuted"], "note": "Proved for every sequence of rounds: what is written, when it ends and how. Refuted: it need not end, it can mark a re-created machine and set back a deletion under way."},
{"property": "C98", "status": "partial", "theorems": ["C98_made", "C98_when", "C98_reference", "C98_claimed", "C98_claimed_without_write", "C98_validated_partial", "C98_deployment", "C98_counts", "C98_name", "C98_names_apart_partial", "C98_long_names_refuted", "C98_runaway_refuted", "C98_deleted_at_once_refuted", "C98_preset_refuted"], "note": "Proved for all templates, selectors and names: copy, ownership, claiming, hash label, counting, validity of names. Partial: that validation implies a fitting template (expressions and empty values are excluded), that names of different sets differ (up to 57 characters). Refuted: endless creation with unsatisfied expressions or deletion annotations in the template, preset node and VM, long names."},
{"property": "C99", "status": "partial", "theorems": ["C99_sets", "C99_deployments", "C99_crash", "C99_crash_refuted", "C99_machines", "C99_others", "C99_list_failure", "C99_stale_series_refuted", "C99_replicas_refuted", "C99_percent_refuted", "C99_phase_refuted", "C99_counter", "C99_frozen"], "note": "Proved for all lists of objects and all earlier contents of the gauges: every gauge of sets, deployments and machines except those refuted, the counts, when a scrape panics, what it leaves alone, and the counter of stale machines. Refuted: replicas of sets, panic on an incomplete strategy, percentages, series of objects that are gone, newer phases."},
{"property": "C100", "status": "partial", "theorems": ["C100_bounds", "C100_ends", "C100_stays", "C100_never_stuck", "C100_machines_partial", "C100_floor_partial", "C100_machines_refuted", "C100_floor_refuted", "C100_floor_lag_refuted"], "note": "Bounds, end and stability for all executions with any caches and API failures; from every state the ordinary course of things leads to the end; the surge in machines and the floor of available machines for executions whose reconciles see true statuses that have been carried out (three refuted theorems show these conditions are needed)."},
{"property": "C101", "status": "partial", "theorems": ["C101_work_partial", "C101_pods_refuted", "C101_budgets_refuted", "C101_checks", "C101_kinds_refuted", "C101_lost", "C101_one", "C101_one_refuted", "C101_workers", "C101_no_workers_refuted"], "note": "In every execution a worker takes a key only after election, a healthy answer and filled caches (except pods, and budgets before 1.21); at most one replica works; losing the lock ends the work; each fed queue has the configured number of workers. Refuted: that all kinds are checked, that pods and budgets are waited for, that at least one worker exists, that one replica works without an election."},
{"property": "C102", "status": "partial", "theorems": ["C102_health", "C102_stuck", "C102_ok_refuted", "C102_attachments", "C102_attachments_refuted"], "note": "The flag is true exactly from the set-up of the server to the end of the process. Refuted: that OK means that the program works or can work; that a failed discovery call is made up for."},
{"property": "C103", "status": "partial", "theorems": ["C103_over_partial", "C103_over_refuted", "C103_under_partial", "C103_order_refuted", "C103_phase_refuted", "C103_never_stuck"], "note": "Proved for all executions under a stated bound on how far the cache is behind (upper bound exact and met for every k) and, for the lower bound, a view no older than the last reconcile with the status write after each deletion succeeding; refuted without (order of listing, phase change). Never stuck is proved without such assumptions."},
{"property": "C104", "status": "partial", "theorems": ["C104_ends_partial", "C104_stays", "C104_machines", "C104_never_stuck_partial", "C104_switched_refuted"], "note": "Proved for every history under Recreate; after a switch from RollingUpdate in mid-update the rollout can be stuck for ever (C104_switched_refuted)."},
{"property": "C105", "status": "partial", "theorems": ["C105_order_partial", "C105_all_gone_partial", "C105_unprotected_refuted", "C105_foreign_finalizer_refuted"], "note": "current views; failing write of the deployment's finalizer and finalizers of others refuted"},
{"property": "C106", "status": "partial", "theorems": ["C106_set_ends", "C106_machine_locked", "C106_deployment_partial", "C106_endless_add_refuted", "C106_endless_remove_refuted", "C106_set_in_the_same_case", "C106_silent_refuted"], "note": "sets and machines proved; deployments can be retried for ever or given up silently (refuted)"},
{"property": "C107", "status": "partial", "theorems": ["C107_broken_for_long_partial", "C107_only_failed_partial", "C107_replaced_partial", "C107_vm_first", "C107_made_up", "C107_recovered_refuted", "C107_sound_deleted_refuted", "C107_blocked_refuted", "C107_flapping_refuted", "C107_lost_write_refuted"], "note": "Proved in every interleaving, with up-to-date views and working delete calls where stated; outdated views, one failed delete call, conditions that keep changing and a lost write break it (refuted theorems)."},
{"property": "C108", "status": "partial", "theorems": ["C108_only_named_partial", "C108_named_go_partial", "C108_no_replacement", "C108_late_marks_refuted", "C108_late_size_refuted", "C108_rollout_refuted"], "note": "Proved for one set, up-to-date views and replacements that are not Running yet, with any failing calls; without failures nothing is created. Refuted: the set sees the size before the marks, the size is written late, and a rolling update takes the size from another set than the one with the named machine."},
{"property": "C109", "status": "partial", "theorems": ["C109_comes_up_partial", "C109_never_stuck", "C109_despite_failures_partial", "C109_gives_up", "C109_creation_given_up", "C109_passes_are_steps", "C109_no_node_name_refuted", "C109_uninitialized_refuted", "C109_no_deadline_refuted"], "note": "C109_never_stuck: after every history (all interleavings, lost writes, restarts) in which answers name node and ID, creation can go on; C109_despite_failures_partial: from there three working passes and one at the end make the machine Running, with failing passes, passes over outdated views and writes of others in any number in between; C109_comes_up_partial: four working passes from every state of a creation; C109_gives_up and C109_creation_given_up: Failed in time; C109_passes_are_steps ties the passes to the world of C24. Not covered: writes of others in the middle of the final passes. Refuted without a node name from the provider, with a VM that stays uninitialized, and with secrets that cannot be read."},
{"property": "C110", "status": "partial", "theorems": ["C110_defined_partial", "C110_taken", "C110_ends", "C110_last_change_partial", "C110_stays", "C110_never_stuck_partial", "C110_rollback", "C110_rollback_creates_refuted", "C110_undefined_share_refuted"], "note": "Proved for every history from a fresh deployment in which at least one machine is always asked for (then no share is undefined), with up-to-date views of the deployment controller (for lagging ones see C111). Refuted: a rollback makes machines for the template being abandoned; asked for no machine in between, a surge in percent can lead to a division by zero, whose conversion to int32 is undefined."},
{"property": "C111", "status": "partial", "theorems": ["C111_same", "C111_defined_partial", "C111_taken", "C111_no_step_back", "C111_ends", "C111_caught_up", "C111_last_change_partial", "C111_forward_partial", "C111_stays", "C111_back_refuted"], "note": "Missing in the partial ones: a wanted size of zero in between (C110_undefined_share_refuted). C111_back_refuted: a restart on an older cache shrinks a finished deployment."},
{"property": "C112", "status": "partial", "theorems": ["C112_deletion_partial", "C112_creation_partial", "C112_executions", "C112_only_deletion", "C112_only_creation", "C112_silent", "C112_silent_refuted", "C112_unreadable_refuted", "C112_text_dropped_refuted", "C112_hidden_refuted", "C112_leftover_refuted"], "note": "Partial: errors of CreateMachine, DeleteMachine, drain, node deletion and of the readable codes of GetMachineStatus/InitializeMachine are told with their text on all paths and in all executions, and nothing is called Failed without a reason. Refuted: errors of class, secret, volume attachments and unreadable ones are silent; texts of passing errors are dropped; a short different error is hidden for half an hour; a VM left over from a stale node is not mentioned."},
{"property": "C113", "status": "partial", "theorems": ["C113_same_calls", "C113_periods", "C113_error_periods", "C113_not_left_alone", "C113_failed_in_time", "C113_deletion_goes_on", "C113_kept", "C113_hold_refuted", "C113_frozen_refuted"], "note": "Proved for every execution of a key in either queue with a clock, for any answers: next look less than ten minutes after the last (also after the 16th failure), failed within a minute of the timeout with prompt workers, stages of an error-free deletion within 5 s. Refuted: the periods for errors of a deletion (the worker's rate limiter adds the key within milliseconds), and the timeout after a short freeze (next look up to ten minutes later)."},
{"property": "C114", "status": "proved", "theorems": ["C114_over_in_time", "C114_over_at_last", "C114_label_first"], "note": "Workers, cache and reconciles keep their delays (hypotheses), nobody else writes the object, volumes are detached from some time on; restarts are not modelled."},
{"property": "C115", "status": "partial", "theorems": ["C115_machine_cache", "C115_machine_objects", "C115_machine_writes", "C115_manager_cache", "C115_manager_fields", "C115_manager_refuted"], "note": "machine controller: full; manager: everything except the three assignments of machineset_util.go, which are shown to change the cache (C115_manager_refuted)"},
{"property": "C116", "status": "partial", "theorems": ["C116_machine_race", "C116_machine_locks", "C116_frozen_refuted", "C116_attachment_refuted", "C116_manager_race", "C116_manager_refuted"], "note": "machine controller: full except for the safety options record (race shown) and the unlocked reads of the attachment worker list (race shown); manager: full except for the three assignments into the cache (race shown)"},
{"property": "C117", "status": "proved", "theorems": ["C117_up_in_time", "C117_no_detour", "C117_too_late"], "note": "in time, for all delays within bounds; the case of a creation timeout that is over before is shown by C117_too_late"},
{"property": "C118", "status": "partial", "theorems": ["C118_only_the_mark", "C118_success_is_true", "C118_few_requests", "C118_over_in_time", "C118_conflicts_outlived_partial", "C118_one_failure_refuted", "C118_one_conflict_refuted"], "note": "conflicts while setting the mark are outlived; failed reads, and any failure while removing it, are not (refuted)"},
{"property": "C119", "status": "partial", "theorems": ["C119_machine_queue", "C119_termination_queue", "C119_well_behaved", "C119_histories", "C119_lists", "C119_answers_refuted", "C119_crash_loop_refuted"], "note": "exact for every reconcile of the two queues; refuted: a success without response and Uninitialized without response crash the controller, at every restart anew"},
{"property": "C120", "status": "partial", "theorems": ["C120_sets", "C120_refused", "C120_arrives", "C120_switched_off", "C120_control", "C120_only_there", "C120_idle_exactly", "C120_idle_refuted", "C120_no_workers_refuted", "C120_frozen_at_size_refuted", "C120_flapping_refuted"], "note": "proved for every command line; refuted for four flags without effect and for values that are accepted though the program cannot work with them"},
{"property": "C121", "status": "partial", "theorems": ["C121_ends", "C121_outlasts_refuted", "C121_pod", "C121_leaves_in_time", "C121_gone", "C121_volumes", "C121_sum", "C121_forced_at_once", "C121_deleted_after_retries", "C121_never_forced", "C121_forcing_refuted", "C121_normal_drains", "C121_then_forced", "C121_forced_why", "C121_sick_forced", "C121_counted_anew_refuted"], "note": "Proved: every drain whose preparation ends in time has returned less than 25 s after its time-out; bounds for each pod and each wait; a pod counts as done only when seen gone, and one leaving in time is a success; forced drains do not wait; deletion after the retries if the deadline is later; drains begun after the time-out since the deletion are forced, those before only for the label or a sick node. Refuted: a drain can outlast its time-out by 24 s; each drain gets the whole time-out anew (up to twice the time-out); with the default settings the forced deletion after the retries never takes place."}
]}
