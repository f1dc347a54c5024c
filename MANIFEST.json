{
 "claims": [
  {
   "property": "C01",
   "status": "proved",
   "theorems": [
    "C01_pool_is_intersection"
   ],
   "note": ""
  },
  {
   "property": "C02",
   "status": "partial",
   "theorems": [
    "C02_time_filter_refuted",
    "C02_time_filter_actual",
    "C02_wellformed_range_selects_nothing"
   ],
   "note": "False of the code: the comparison is inverted. Exact behaviour proved."
  },
  {
   "property": "C03",
   "status": "partial",
   "theorems": [
    "C03_unknown_bounds_refuted",
    "C03_declared_bounds_partial",
    "C03_undeclared_admits_all"
   ],
   "note": "False of the code for undeclared enum values; proved for the declared ones."
  },
  {
   "property": "C04",
   "status": "proved",
   "theorems": [
    "C04_rejected_pool_gets_nothing",
    "C04_validation_rule"
   ],
   "note": ""
  },
  {
   "property": "C05",
   "status": "proved",
   "theorems": [
    "C05_stored_tickets_never_panic",
    "C05_panic_characterisation"
   ],
   "note": ""
  },
  {
   "property": "C06",
   "status": "proved",
   "theorems": [
    "C06_create_ticket_normalises",
    "C06_missing_ticket_rejected"
   ],
   "note": ""
  },
  {
   "property": "C07",
   "status": "partial",
   "theorems": [
    "C07_future_ticket_outlives_ttl_refuted",
    "C07_gone_after_ttl_partial"
   ],
   "note": "False of the code for client creation times in the future (witness in CacheWitness.v); proved for all others."
  },
  {
   "property": "C08",
   "status": "proved",
   "theorems": [
    "C08_ids_increasing"
   ],
   "note": ""
  },
  {
   "property": "C09",
   "status": "partial",
   "theorems": [
    "C09_clock_step_back_refuted",
    "C09_unique_partial"
   ],
   "note": "False of the code when the clock goes back to an earlier second; proved otherwise."
  },
  {
   "property": "C10",
   "status": "proved",
   "theorems": [
    "C10_ids_valid_and_dated",
    "C10_ids_injective",
    "C10_memory_ids",
    "C10_redis_ids"
   ],
   "note": ""
  },
  {
   "property": "C11",
   "status": "partial",
   "theorems": [
    "C11_unanchored_refuted",
    "C11_accepts_iff_dash",
    "C11_regex_language"
   ],
   "note": "False of the code: the regular expression is not anchored. Exact set of accepted ids proved."
  },
  {
   "property": "C12",
   "status": "proved",
   "theorems": [
    "C12_batching_exact",
    "C12_timeout_flushes"
   ],
   "note": ""
  },
  {
   "property": "C13",
   "status": "proved",
   "theorems": [
    "C13_own_answer"
   ],
   "note": ""
  },
  {
   "property": "C14",
   "status": "partial",
   "theorems": [
    "C14_answers_mixed_up_refuted",
    "C14_answers_own_partial",
    "C14_valid_prefix_partial",
    "C14_exact_answers"
   ],
   "note": "False of the code after an invalid update in the same batch; proved for all updates before it, exact answers proved for every batch."
  },
  {
   "property": "C15",
   "status": "partial",
   "theorems": [
    "C15_ack_without_storing_refuted",
    "C15_ack_stored_partial",
    "C15_log_is_appended"
   ],
   "note": "False of the code when the connection breaks and after an invalid update in the same batch; proved otherwise."
  },
  {
   "property": "C16",
   "status": "partial",
   "theorems": [
    "C16_pool_starves_refuted",
    "C16_pool_partial"
   ],
   "note": "False of the code: connections are never returned. Exact number of calls that succeed proved."
  },
  {
   "property": "C17",
   "status": "proved",
   "theorems": [
    "C17_round_trip",
    "C17_encoded"
   ],
   "note": ""
  },
  {
   "property": "C18",
   "status": "proved",
   "theorems": [
    "C18_in_order_no_repeats",
    "C18_prefix",
    "C18_catches_up",
    "C18_low_thresholds"
   ],
   "note": ""
  },
  {
   "property": "C19",
   "status": "proved",
   "theorems": [
    "C19_inactive_from_birth",
    "C19_inactive_during_expiry"
   ],
   "note": ""
  },
  {
   "property": "C20",
   "status": "proved",
   "theorems": [
    "C20_last_command_wins",
    "C20_cache_content",
    "C20_other_ids_irrelevant",
    "C20_updates_never_remove"
   ],
   "note": ""
  },
  {
   "property": "C21",
   "status": "proved",
   "theorems": [
    "C21_expiry_never_revives"
   ],
   "note": ""
  },
  {
   "property": "C22",
   "status": "proved",
   "theorems": [
    "C22_expiry_exact",
    "C22_expiry_between"
   ],
   "note": ""
  },
  {
   "property": "C23",
   "status": "proved",
   "theorems": [
    "C23_replicas_agree"
   ],
   "note": ""
  },
  {
   "property": "C24",
   "status": "partial",
   "theorems": [
    "C24_replicas_disagree_refuted",
    "C24_replicas_agree_partial"
   ],
   "note": "False of the code for client creation times in the future (witness in CacheWitness.v); proved for all others."
  },
  {
   "property": "C25",
   "status": "proved",
   "theorems": [
    "C25_late_joiner",
    "C25_late_joiner_with_expiry"
   ],
   "note": ""
  },
  {
   "property": "C26",
   "status": "partial",
   "theorems": [
    "C26_redis_ids_stay_refuted",
    "C26_never_expires"
   ],
   "note": "False of the code: milliseconds against seconds. Proved that nothing with a Redis id ever expires."
  },
  {
   "property": "C27",
   "status": "partial",
   "theorems": [
    "C27_old_entries_stay_refuted",
    "C27_never_trims"
   ],
   "note": "False of the code: milliseconds against seconds. Proved that no batch ever trims anything."
  },
  {
   "property": "C28",
   "status": "proved",
   "theorems": [
    "C28_assignments"
   ],
   "note": ""
  },
  {
   "property": "C29",
   "status": "partial",
   "theorems": [
    "C29_snapshot_race_refuted",
    "C29_snapshot_active_partial"
   ],
   "note": "False of the code: a ticket created between reading the two maps is sent. Proved for ids not created or deactivated during the snapshot."
  },
  {
   "property": "C30",
   "status": "proved",
   "theorems": [
    "C30_stably_active_taken",
    "C30_stably_inactive_not_taken",
    "C30_taken_was_cached",
    "C30_taken_not_inactive",
    "C30_ids_distinct"
   ],
   "note": ""
  },
  {
   "property": "C31",
   "status": "proved",
   "theorems": [
    "C31_limits",
    "C31_sends_accepted_ids"
   ],
   "note": ""
  },
  {
   "property": "C32",
   "status": "partial",
   "theorems": [
    "C32_dropped_ids_refuted",
    "C32_all_sent_partial"
   ],
   "note": "False of the code: ids without a dash are dropped silently. Exact condition proved."
  },
  {
   "property": "C33",
   "status": "partial",
   "theorems": [
    "C33_told_partial",
    "C33_texts_agree",
    "C33_told_exactly",
    "C33_told_iff",
    "C33_failures_reported_refuted",
    "C33_error_iff_failure_partial",
    "C33_violations_collapse_refuted",
    "C33_violation_partial"
   ],
   "note": "Without texts, or when all texts are UTF-8, the call fails iff an update failed (C33_error_iff_failure_partial, C33_told_partial). With Redis, exactly (C33_told_exactly, C33_told_iff): the text of the last failure decides; if it is UTF-8 the client gets one violation, for that id only; if it is not UTF-8, WithDetails fails, the status is nil and the client is told OK (C33_failures_reported_refuted). One violation for each failed id is false (they collapse under one key)."
  },
  {
   "property": "C34",
   "status": "proved",
   "theorems": [
    "C34_assigns_named_tickets",
    "C34_rejects_malformed"
   ],
   "note": ""
  },
  {
   "property": "C35",
   "status": "partial",
   "theorems": [
    "C35_failures_swallowed_refuted",
    "C35_empty_assignment_lost",
    "C35_malformed_reported_partial"
   ],
   "note": "False of the code: errors are only logged."
  },
  {
   "property": "C36",
   "status": "proved",
   "theorems": [
    "C36_functions_get_exactly_the_eligible_tickets",
    "C36_split_panics_iff_a_filter_does"
   ],
   "note": ""
  },
  {
   "property": "C37",
   "status": "proved",
   "theorems": [
    "C37_accounted_sizes",
    "C37_chunk_count"
   ],
   "note": ""
  },
  {
   "property": "C38",
   "status": "partial",
   "theorems": [
    "C38_chunks_fit_refuted",
    "C38_real_size_bound_partial",
    "C38_chunks_fit_partial"
   ],
   "note": "False of the code: tag and length bytes are not counted (108,000 small tickets). Bound on the real size and a sufficient condition proved."
  },
  {
   "property": "C39",
   "status": "partial",
   "theorems": [
    "C39_profile_passed_through_refuted",
    "C39_profile_passed_through_partial"
   ],
   "note": "False of the code: pools arrive with nothing but their participants. Exact contents proved."
  },
  {
   "property": "C40",
   "status": "proved",
   "theorems": [
    "C40_relayed_after_deactivation"
   ],
   "note": ""
  },
  {
   "property": "C41",
   "status": "partial",
   "theorems": [
    "C41_nothing_lost_refuted",
    "C41_at_most_one_lost_partial"
   ],
   "note": "The full claim is refuted (witness: the handler returns while the fan-in goroutine is still in stream.Send, with either setting of the deactivation wait). Proved instead: at most one match is missing."
  },
  {
   "property": "C42",
   "status": "partial",
   "theorems": [
    "C42_functions_cannot_crash_refuted",
    "C42_failing_function_crash_refuted",
    "C42_only_two_crashes_partial"
   ],
   "note": "Refuted with two independent witnesses: a match without tickets (index -1) and a function failing after it delivered a match (send on closed channel). Proved: these are the only causes of a crash."
  },
  {
   "property": "C43",
   "status": "partial",
   "theorems": [
    "C43_deactivation_visible_refuted",
    "C43_deactivation_accepted_partial",
    "C43_check_is_no_wait_partial"
   ],
   "note": "Refuted: deactivationCheck looks once at the last ticket only and its outcome is not used. Proved: with the wait on each streamed match has a ticket and all deactivations were answered by the store; the check never holds a match back."
  },
  {
   "property": "C44",
   "status": "partial",
   "theorems": [
    "C44_failures_reported_refuted",
    "C44_only_validation_errors_partial"
   ],
   "note": "Refuted: errors of the function goroutines are dropped (e.g. a REST function), the call returns nil. Proved: the only errors are the two validation errors."
  },
  {
   "property": "C45",
   "status": "proved",
   "theorems": [
    "C45_answers_are_genuine"
   ],
   "note": ""
  },
  {
   "property": "C46",
   "status": "partial",
   "theorems": [
    "C46_watch_never_crashes_refuted",
    "C46_crash_only_after_timeout_partial",
    "C46_crash_after_late_assignment_partial"
   ],
   "note": "False of the code: an assignment after the watch timed out is sent on a closed channel. Exact condition proved."
  },
  {
   "property": "C47",
   "status": "partial",
   "theorems": [
    "C47_gauge_restored_refuted",
    "C47_gauge_exact_partial"
   ],
   "note": "False of the code: a timeout adds the unanswered watches again. Exact value proved."
  },
  {
   "property": "C48",
   "status": "proved",
   "theorems": [
    "C48_duels_pair_tickets_in_order"
   ],
   "note": ""
  },
  {
   "property": "C49",
   "status": "partial",
   "theorems": [
    "C49_no_self_match_refuted",
    "C49_no_self_match_partial"
   ],
   "note": "False of the code: a ticket in two pools is matched against itself. Proved when no ticket is in two pools."
  },
  {
   "property": "C50",
   "status": "proved",
   "theorems": [
    "C50_royale_fills_hundreds"
   ],
   "note": ""
  },
  {
   "property": "C51",
   "status": "proved",
   "theorems": [
    "C51_team_matches_complete_and_maximal"
   ],
   "note": ""
  },
  {
   "property": "C52",
   "status": "proved",
   "theorems": [
    "C52_duel_ids_unique",
    "C52_royale_ids_unique",
    "C52_team_ids_unique"
   ],
   "note": ""
  },
  {
   "property": "C53",
   "status": "proved",
   "theorems": [
    "C53_activation_batches",
    "C53_activation_returns"
   ],
   "note": "Arrivals from other goroutines at any time; the calls to om-core themselves are not modelled."
  },
  {
   "property": "C54",
   "status": "partial",
   "theorems": [
    "C54_stops_on_third_refuted",
    "C54_stops_on_fourth_partial"
   ],
   "note": "Refuted: the check precedes the increment, so the loop stops on the fourth consecutive empty cycle. That is proved as an exact characterisation."
  },
  {
   "property": "C55",
   "status": "partial",
   "theorems": [
    "C55_requeue_never_blocks_refuted",
    "C55_requeue_limit_partial"
   ],
   "note": "Refuted: the loop itself is the only reader of the 10000 place queue it fills. Proved: the exact limit."
  },
  {
   "property": "C56",
   "status": "partial",
   "theorems": [
    "C56_counter_counts_refuted",
    "C56_counter_exact_partial",
    "C56_counter_over_by_functions_partial"
   ],
   "note": "Refuted: the loop variable starts at 1, so every function that ends normally adds one too many. Proved: the exact value of the counter."
  },
  {
   "property": "C57",
   "status": "proved",
   "theorems": [
    "C57_gauges"
   ],
   "note": ""
  },
  {
   "property": "C58",
   "status": "partial",
   "theorems": [
    "C58_active_gauge_refuted",
    "C58_active_gauge_partial"
   ],
   "note": "False of the code: ids marked inactive without a ticket are subtracted. Exact value proved."
  },
  {
   "property": "C59",
   "status": "proved",
   "theorems": [
    "C59_ticket_round_trip",
    "C59_assignment_round_trip"
   ],
   "note": ""
  },
  {
   "property": "C60",
   "status": "proved",
   "theorems": [
    "C60_answers",
    "C60_call_done",
    "C60_created_under_its_id",
    "C60_ids_distinct",
    "C60_cache_from_history",
    "C60_only_created",
    "C60_active_only_after_activation"
   ],
   "note": "Clock readings of the in-memory store are assumed not to go back (C09 shows ids can repeat otherwise) and the start time is not before 1970."
  },
  {
   "property": "C61",
   "status": "partial",
   "theorems": [
    "C61_subsequence",
    "C61_prefix",
    "C61_same_order",
    "C61_cache",
    "C61_answers",
    "C61_sendable",
    "C61_at_most_once",
    "C61_unique_ids_partial",
    "C61_names_its_ticket_partial",
    "C61_only_created",
    "C61_active_only_after_activation",
    "C61_unique_ids_refuted",
    "C61_names_its_ticket_refuted"
   ],
   "note": "Refuted as stated: when the Redis connection breaks, all callers of the batch get the empty id and no error (C61_unique_ids_refuted, C61_names_its_ticket_refuted). Proved for non-empty ids (the two _partial theorems). The rest is proved: common history as prefix (if no XTRIM threshold is above an id in the stream), at most once, only created tickets, active only after activation."
  },
  {
   "property": "C62",
   "status": "proved",
   "theorems": [
    "C62_level_names"
   ],
   "note": ""
  },
  {
   "property": "C63",
   "status": "proved",
   "theorems": [
    "C63_request_reaches_call_iff_route",
    "C63_routes_differ",
    "C63_override_header"
   ],
   "note": "Exact, also for requests with the X-HTTP-Method-Override header: a form POST may reach DeactivateTickets, every other call only by its own method."
  },
  {
   "property": "C64",
   "status": "partial",
   "theorems": [
    "C64_port_or_default_refuted",
    "C64_port_exact_partial",
    "C64_port_in_range_partial"
   ],
   "note": "False of the code: numbers beyond 32 bits wrap around instead of falling back. Exact value proved."
  },
  {
   "property": "C65",
   "status": "partial",
   "theorems": [
    "C65_watch_gives_up_in_time_refuted",
    "C65_memory_watch_gives_up_partial",
    "C65_redis_watch_never_gives_up_partial",
    "C65_never_gives_up_early"
   ],
   "note": "Second half proved. First half false of the code for Redis ids (milliseconds taken for seconds); proved for in-memory ids."
  },
  {
   "property": "C66",
   "status": "partial",
   "theorems": [
    "C66_ended_watch_leaves_nothing_refuted",
    "C66_left_running_iff_timed_out_partial"
   ],
   "note": "False of the code after a timeout; proved that this is the only case."
  },
  {
   "property": "C67",
   "status": "proved",
   "theorems": [
    "C67_invocations_can_finish"
   ],
   "note": "Possibility of termination (deadlock freedom); function goroutines with a 10 minute limit are represented by the environment step V_fail."
  },
  {
   "property": "C68",
   "status": "partial",
   "theorems": [
    "C68_returns_after_calls_refuted",
    "C68_no_call_running_partial"
   ],
   "note": "Refuted: activationWg.Add runs inside the goroutine. Proved: no call is between Add and Done at the moment of return."
  },
  {
   "property": "C69",
   "status": "partial",
   "theorems": [
    "C69_only_results_counted_refuted",
    "C69_one_match_per_line_partial"
   ],
   "note": "Refuted: a gateway error line is counted as an accepted match; texts of fewer than 11 bytes panic. Proved: the exact behaviour, with protojson.Unmarshal as a parameter."
  },
  {
   "property": "C70",
   "status": "proved",
   "theorems": [
    "C70_order",
    "C70_created_then_activated",
    "C70_no_panic",
    "C70_can_finish"
   ],
   "note": "Same assumptions as C60. Progress is stated as: from every reachable state a quiescent state is reachable without further calls."
  },
  {
   "property": "C71",
   "status": "proved",
   "theorems": [
    "C71_order",
    "C71_created_then_activated",
    "C71_no_panic",
    "C71_can_finish"
   ],
   "note": "No restriction on interleavings. Deadlock freedom assumes OM_CACHE_IN_MAX_UPDATES_PER_POLL >= 1 and trims that spare the stream; exhaustion of the connection pool is C16 and not part of this model."
  },
  {
   "property": "C72",
   "status": "proved",
   "theorems": [
    "C72_functions_are_served",
    "C72_functions_get_created_tickets",
    "C72_activated_ticket_reaches_functions",
    "C72_inactive_ticket_not_offered"
   ],
   "note": ""
  },
  {
   "property": "C73",
   "status": "proved",
   "theorems": [
    "C73_functions_are_served",
    "C73_functions_get_created_tickets",
    "C73_activated_ticket_reaches_functions",
    "C73_inactive_ticket_not_offered"
   ],
   "note": ""
  },
  {
   "property": "C74",
   "status": "partial",
   "theorems": [
    "C74_only_activated_partial",
    "C74_only_activated_redis_partial",
    "C74_only_activated_refuted"
   ],
   "note": "Refuted (C74_only_activated_refuted): the snapshot copies the inactive set first and the tickets afterwards, so a ticket that is created in between is given to functions although nobody has activated it. True, with one instance and with many, for every ticket that was stored before the snapshot began (C74_only_activated_partial, C74_only_activated_redis_partial)."
  },
  {
   "property": "C75",
   "status": "partial",
   "theorems": [
    "C75_unset_keeps_default",
    "C75_number_is_read",
    "C75_zero_fraction_is_read",
    "C75_reads",
    "C75_reads_nothing_else",
    "C75_switch_is_read",
    "C75_unreadable_keeps_default_refuted",
    "C75_unreadable_is_zero_partial",
    "C75_too_big_is_zero",
    "C75_unreadable_lifetime_expires_tickets",
    "C75_unreadable_limit_rejects_all",
    "C75_zeros_in_front_refuted",
    "C75_zero_in_front_is_octal"
   ],
   "note": "An unreadable value is not reported and becomes 0, not the default: with a lifetime of 10m every ticket expires at creation, with such an update limit every activation is rejected. Leading zeros mean octal. Both full claims are refuted; the readings that do hold are proved."
  },
  {
   "property": "C76",
   "status": "partial",
   "theorems": [
    "C76_same_limit_refuted",
    "C76_same_limit_partial",
    "C76_accepted_by_redis"
   ],
   "note": "Refuted: for 010, +5, 25.0 or 0x10 the server reads a number while Redis refuses the command, so no update ever arrives. Whatever Redis accepts means the same here."
  },
  {
   "property": "C77",
   "status": "partial",
   "theorems": [
    "C77_never_crashes_refuted",
    "C77_crashes_iff_partial",
    "C77_uses_settings",
    "C77_starts_with_defaults"
   ],
   "note": "Refuted: another storage type (also Redis with a capital) or a negative poll limit crashes the server; proved that these are the only cases, apart from channel sizes too big for memory, which are not modelled."
  },
  {
   "property": "C78",
   "status": "partial",
   "theorems": [
    "C78_unknown_format_is_default_refuted",
    "C78_debug_follows_level_refuted",
    "C78_format_partial",
    "C78_not_given_is_default",
    "C78_debug_ignores_level_partial"
   ],
   "note": "Refuted: an unknown format means text although json is documented, and IsDebugEnabled reads a key that is never set. The actual meaning is proved."
  },
  {
   "property": "C79",
   "status": "proved",
   "theorems": [
    "C79_stored_assignments_were_made",
    "C79_last_assignment_wins",
    "C79_watch_answers_were_assigned",
    "C79_watch_can_finish"
   ],
   "note": "The watch runs alongside the server (Model/WatchSystem.v) and may find any part of the assignments of the moment. Assignments must be ones protobuf can carry (ValidAssigns)."
  },
  {
   "property": "C80",
   "status": "proved",
   "theorems": [
    "C80_stored_assignments_were_made",
    "C80_last_assignment_wins",
    "C80_watch_answers_were_assigned",
    "C80_watch_can_finish"
   ],
   "note": "As C79. An assignment counts as settled when its answer was good; a call that got an error or an empty id can still be written later, so nothing is claimed about the order of such calls."
  },
  {
   "property": "C81",
   "status": "proved",
   "theorems": [
    "C81_last_state_change_wins",
    "C81_deactivated_ticket_is_not_offered",
    "C81_reactivated_ticket_reaches_functions"
   ],
   "note": "Replaces the assumption of C70/C72 that the ticket is never deactivated; expiry is excluded by hypothesis as there."
  },
  {
   "property": "C82",
   "status": "proved",
   "theorems": [
    "C82_last_state_change_wins",
    "C82_deactivated_ticket_is_not_offered",
    "C82_reactivated_ticket_reaches_functions"
   ],
   "note": "Replaces the assumption of C71/C73 that the ticket is never deactivated; calls that were not acknowledged may still write later, so earlier opposite calls are required to be acknowledged."
  },
  {
   "property": "C83",
   "status": "proved",
   "theorems": [
    "C83_client_is_told_the_id",
    "C83_no_error"
   ],
   "note": ""
  },
  {
   "property": "C84",
   "status": "partial",
   "theorems": [
    "C84_client_is_told_the_id_partial",
    "C84_error_means_not_created",
    "C84_tells_the_id_refuted",
    "C84_no_id_no_ticket_refuted"
   ],
   "note": "Both halves are false of the code when the connection to Redis breaks: the client is then told the empty id without an error (C84_tells_the_id_refuted) although its ticket may have been created (C84_no_id_no_ticket_refuted). Proved: every non-empty id without an error names the ticket, and an error means that nothing was written, now or later."
  },
  {
   "property": "C85",
   "status": "partial",
   "theorems": [
    "C85_crash_iff",
    "C85_foreign_is_a_blank_ticket",
    "C85_foreign_harmless_partial",
    "C85_never_crashes_refuted",
    "C85_foreign_ignored_refuted"
   ],
   "note": "False of the code in both halves: an entry of a known kind with a part missing makes the reader index past the end and crash (C85_never_crashes_refuted; C85_crash_iff says exactly when), and the zero value of StateUpdate is the creation of a ticket with the empty id (C85_foreign_ignored_refuted). Proved: the blank ticket is never active and nothing else in the cache changes."
  },
  {
   "property": "C86",
   "status": "proved",
   "theorems": [
    "C86_ticket",
    "C86_active",
    "C86_same_state",
    "C86_assignment",
    "C86_when_caught_up",
    "C86_when_equally_far",
    "C86_when_nothing_is_coming"
   ],
   "note": ""
  },
  {
   "property": "C87",
   "status": "proved",
   "theorems": [
    "C87_answered_in_time",
    "C87_first_come_first_served",
    "C87_same_batches"
   ],
   "note": "A goroutine that can run is assumed to run at once; scheduler delays count as part of D. Go's channels serve waiting senders in order."
  },
  {
   "property": "C88",
   "status": "partial",
   "theorems": [
    "C88_gone_in_time_partial",
    "C88_stretch_length",
    "C88_stretch_bounded",
    "C88_limit_has_no_effect",
    "C88_hard_limit_refuted",
    "C88_gone_in_time_refuted"
   ],
   "note": "False of the code as stated: the 500 ms timer is made anew for every update, so it never ends a stretch (C88_limit_has_no_effect), stretches have no limit (C88_hard_limit_refuted), and under load an expired ticket can stay for any time (C88_gone_in_time_refuted). Proved: the bound with the longest stretch as a parameter, and that stretches are bounded when updates arrive more slowly than they are applied."
  },
  {
   "property": "C89",
   "status": "partial",
   "theorems": [
    "C89_dials_what_is_asked_refuted",
    "C89_host_and_port_partial",
    "C89_ipv6_fails",
    "C89_ipv6_in_brackets",
    "C89_port_in_host",
    "C89_no_port_fails",
    "C89_targets_differ"
   ],
   "note": "False of the code: host and port are joined to a string that grpc-go reads as a URL, so a host called unix, dns, passthrough or unix-abstract (in any case) is taken for a scheme, and IPv6 addresses without brackets cannot be split again. Proved: for host names and IPv4 addresses exactly those four names fail, targets of different functions differ, brackets make IPv6 work, a missing port fails unless the host contains it. Hosts with other characters (slashes, percent signs) are outside the model."
  },
  {
   "property": "C90",
   "status": "proved",
   "theorems": [
    "C90_matches_of_clients_tickets",
    "C90_matches_of_clients_tickets_redis",
    "C90_matches_from_snapshot",
    "C90_duels_leave_at_most_one",
    "C90_royale_leaves_less_than_a_match",
    "C90_teams_as_many_as_possible"
   ],
   "note": ""
  },
  {
   "property": "C91",
   "status": "partial",
   "theorems": [
    "C91_ticket_used_once_refuted",
    "C91_ticket_used_once_partial",
    "C91_royale_uses_tickets_once"
   ],
   "note": "Refuted for soloduel and teamshooter: a player eligible for several pools is used once per pool, possibly several times in one match. Proved when no ticket is eligible for two of the function's pools, hence always for battleroyale."
  },
  {
   "property": "C92",
   "status": "proved",
   "theorems": [
    "C92_broken_request_no_match"
   ],
   "note": ""
  },
  {
   "property": "C93",
   "status": "partial",
   "theorems": [
    "C93_ids_of_runs_differ_refuted",
    "C93_ids_of_runs_differ_partial",
    "C93_ids_of_functions_differ"
   ],
   "note": "Refuted: the time in an id is cut off to hundredths of a second, so two runs in the same hundredth repeat ids. Proved for runs in different hundredths and for different functions."
  },
  {
   "property": "C94",
   "status": "partial",
   "theorems": [
    "C94_one_creation_time_refuted",
    "C94_decimal_partial",
    "C94_prefix_partial",
    "C94_watch_reads",
    "C94_watch_reads_only",
    "C94_parser_exact",
    "C94_issued_ids"
   ],
   "note": "Refuted: WatchAssignments parses with base 0, so 010-0 is second 8 for a watch and second 10 for the cache. Exact agreement on decimal numerals, both readings of prefixed numerals, and agreement on all issued ids proved."
  },
  {
   "property": "C95",
   "status": "proved",
   "theorems": [
    "C95_every_call_measured",
    "C95_names"
   ],
   "note": "Rounding of float64 is left out: a duration is modelled by its whole microseconds."
  },
  {
   "property": "C96",
   "status": "partial",
   "theorems": [
    "C96_counts_successes_refuted",
    "C96_counts_requests_partial",
    "C96_assignments_partial"
   ],
   "note": "Refuted: failed updates are counted as well. Proved: the value is the number of updates sent, and equals the number of successes exactly if the call reports OK (CreateAssignments never reports errors)."
  },
  {
   "property": "C97",
   "status": "partial",
   "theorems": [
    "C97_cycle_duration_refuted",
    "C97_whole_milliseconds_partial"
   ],
   "note": "Refuted: the division by 1000.0 is an integer division, so fractions of a millisecond are dropped and cycles under a millisecond are recorded as 0. Exact value proved."
  },
  {
   "property": "C98",
   "status": "partial",
   "theorems": [
    "C98_reads_every_match_refuted",
    "C98_exactly_without_spaces_partial",
    "C98_fatal_at_first_space_partial",
    "C98_builds_agree",
    "C98_lines_are_json"
   ],
   "note": "Refuted: reading stops the process at the first white space inside a string of a result (fmt.Fscanf with %s). C98_exactly_without_spaces_partial characterises exactly when everything is read; C98_fatal_at_first_space_partial says what happens otherwise. C98_builds_agree: the spaces protojson puts after commas in some builds are removed by encoding/json on the way."
  },
  {
   "property": "C99",
   "status": "proved",
   "theorems": [
    "C99_players_used_once",
    "C99_players_used_once_redis",
    "C99_players_accepted",
    "C99_request"
   ],
   "note": ""
  },
  {
   "property": "C100",
   "status": "partial",
   "theorems": [
    "C100_every_function_matches_refuted",
    "C100_royale_never_partial",
    "C100_solo_partial",
    "C100_team_partial"
   ],
   "note": "Refuted: battleroyale looks for a pool called competitive, which the example's profile lacks, so in the example it never makes a match (C100_royale_never_partial). C100_solo_partial and C100_team_partial prove the claim for the other two functions, already with two players, or two tanks, two healers and six dps."
  },
  {
   "property": "C101",
   "status": "partial",
   "theorems": [
    "C101_matches_sorted",
    "C101_rejected_tickets_queued",
    "C101_one_in_a_hundred_refuted",
    "C101_two_in_a_hundred_partial"
   ],
   "note": "The draw rejects two outcomes in a hundred (rand.Intn(100) <= 1) although the comment says one: C101_one_in_a_hundred_refuted, C101_two_in_a_hundred_partial. The rest is proved in full (C101_matches_sorted, C101_rejected_tickets_queued)."
  },
  {
   "property": "C102",
   "status": "partial",
   "theorems": [
    "C102_queues_created_ids_refuted",
    "C102_failures_ignored_partial",
    "C102_what_is_queued"
   ],
   "note": "Refuted: after a failed CreateTicket the empty id is queued. C102_failures_ignored_partial: om-core handles every batch as if the failed creations were not in it."
  },
  {
   "property": "C103",
   "status": "partial",
   "theorems": [
    "C103_calls_omhost_refuted",
    "C103_calls_omhost_partial"
   ],
   "note": "Refuted: unless -conn is exactly grpc (the default is http) calls go to localhost:58081. C103_calls_omhost_partial is the exact characterisation."
  },
  {
   "property": "C104",
   "status": "partial",
   "theorems": [
    "C104_as_configured_refuted",
    "C104_exactly_if_fits_partial",
    "C104_unit_is_no_time",
    "C104_not_given_is_default",
    "C104_wait_exact"
   ],
   "note": "Refuted for numbers of seconds beyond 292 years, which wrap around and leave functions no time; C104_exactly_if_fits_partial is the exact condition. C104_unit_is_no_time: a value with a unit means no time at all."
  },
  {
   "property": "C105",
   "status": "partial",
   "theorems": [
    "C105_redis_waits_refuted",
    "C105_accepted_partial",
    "C105_same_meaning",
    "C105_not_given_is_default"
   ],
   "note": "Refuted: Redis refuses numbers in other than the usual decimal form, so that no update is ever received; C105_accepted_partial is exact, C105_same_meaning says that both sides agree otherwise."
  },
  {
   "property": "C106",
   "status": "partial",
   "theorems": [
    "C106_number_is_nanoseconds",
    "C106_units",
    "C106_exact",
    "C106_not_given_is_default",
    "C106_polls_answered_refuted",
    "C106_answered_iff_partial",
    "C106_quiet_polls_fail_partial"
   ],
   "note": "The reading of the value is proved in full; that polls are answered is refuted, because the value is also the limit for connecting and for replies (60 means 60 ns). C106_answered_iff_partial is exact, C106_quiet_polls_fail_partial says which limits make quiet polls fail."
  },
  {
   "property": "C107",
   "status": "partial",
   "theorems": [
    "C107_gateway_reaches_refuted",
    "C107_gateway_iff_partial",
    "C107_listens_partial",
    "C107_listens_as_told_refuted",
    "C107_not_given_is_default"
   ],
   "note": "Refuted for PORT=0 and for numbers beyond 2^32, which net's parsePort wraps around. C107_gateway_iff_partial and C107_listens_partial are exact otherwise. Names of services are not modelled."
  },
  {
   "property": "C108",
   "status": "partial",
   "theorems": [
    "C108_redis_found_refuted",
    "C108_host_names_partial",
    "C108_ipv6_fails_partial",
    "C108_sides_independent",
    "C108_not_given_is_default"
   ],
   "note": "Refuted for plain IPv6 addresses (C108_ipv6_fails_partial); proved for host names and IPv4 addresses (C108_host_names_partial). C108_sides_independent in full."
  },
  {
   "property": "C109",
   "status": "proved",
   "theorems": [
    "C109_accepted_text_is_utf8",
    "C109_received_tickets_are_storable"
   ],
   "note": "Exact: both directions. The size limits of gRPC are not part of it."
  },
  {
   "property": "C110",
   "status": "proved",
   "theorems": [
    "C110_requests_arrive",
    "C110_chunks_arrive",
    "C110_matches_arrive",
    "C110_chunk_bytes"
   ],
   "note": "Numbers must be in range for their Go types and messages below 2^64 bytes; decoding of partial messages after an error is not modelled."
  },
  {
   "property": "C111",
   "status": "proved",
   "theorems": [
    "C111_matches_passed_on",
    "C111_chunks_passed_on"
   ],
   "note": "The 4 MiB limit of gRPC (C38) is not part of this; tickets are as the cache stores them (stored_ticket)."
  },
  {
   "property": "C112",
   "status": "partial",
   "theorems": [
    "C112_deactivated_are_told_refuted",
    "C112_hangup_changes_nothing_partial",
    "C112_works_for_nobody_partial",
    "C112_delivered_partial",
    "C112_told_if_staying_partial"
   ],
   "note": "Refuted (a caller that hangs up). Proved: the exact relation between runs with and without a hang-up; what is delivered is a prefix of what was sent; a caller that stays is told about everything but C41's last match. A match sent while the caller is there counts as delivered."
  },
  {
   "property": "C113",
   "status": "partial",
   "theorems": [
    "C113_functions_read_eligible_tickets_refuted",
    "C113_functions_read_eligible_tickets_partial",
    "C113_larger_tickets_partial"
   ],
   "note": "Refuted by C38's 108,000 small tickets. Proved: the exact outcome for every request (eligible tickets, or an error if a message is over the limit), and that larger tickets always arrive. Messages are not compressed and arrive in order."
  },
  {
   "property": "C114",
   "status": "partial",
   "theorems": [
    "C114_all_functions_invoked_refuted",
    "C114_invoked_iff_typed_partial",
    "C114_type_on_the_wire_partial",
    "C114_matches_only_from_invoked_partial"
   ],
   "note": "Refuted (type left out). Proved: exactly the functions with a type other than 0 modulo 2^32 are looked for; matches come only from those; the others count as failed and the call returns nil."
  },
  {
   "property": "C115",
   "status": "partial",
   "theorems": [
    "C115_always_stored_partial",
    "C115_sound_value_partial",
    "C115_sound_assignment_partial",
    "C115_damaged_value_partial",
    "C115_damaged_assignment_partial",
    "C115_damaged_attributes_partial",
    "C115_damaged_is_ignored_refuted"
   ],
   "note": "Refuted: every announced ticket is stored, inactive, whatever its value. Exact: a value that decodes is stored as what it decodes to; one that is damaged behind whole fields as what those fields say."
  },
  {
   "property": "C116",
   "status": "partial",
   "theorems": [
    "C116_issued_ids_forgotten_partial",
    "C116_later_ids_stay_inactive_partial",
    "C116_later_ids_stay_assigned_partial",
    "C116_everything_forgotten_refuted"
   ],
   "note": "Refuted: clients can deactivate and assign ids the store never issued, with any number; such entries stay until the clock passes that number, so some for ever. Proved for all ids whose number is not in the future."
  },
  {
   "property": "C117",
   "status": "partial",
   "theorems": [
    "C117_any_matches_passed_on_partial",
    "C117_from_functions_partial",
    "C117_one_match_per_ticket_refuted"
   ],
   "note": "Refuted: two functions (or one function twice) can put the same ticket in a match each and both matches are passed on. Proved: any matches with tickets can all be passed on whatever they share, and each one passed on is one answer of a function."
  },
  {
   "property": "C118",
   "status": "partial",
   "theorems": [
    "C118_every_ticket_over_http_refuted",
    "C118_same_request_partial",
    "C118_writable_iff",
    "C118_only_known_extensions",
    "C118_ids_body_iff",
    "C118_same_key_rejected"
   ],
   "note": "Refuted as stated (C118_every_ticket_over_http_refuted): an extension whose type the gateway process does not know has no JSON form. C118_same_request_partial proves that all requests of the API are read as written when both sides know the types; C118_writable_iff and C118_only_known_extensions are exact about what can be written and read. Numbers, times and the type registry are parameters of the model."
  },
  {
   "property": "C119",
   "status": "partial",
   "theorems": [
    "C119_sees_every_match_refuted",
    "C119_all_received_partial",
    "C119_until_first_partial",
    "C119_error_iff"
   ],
   "note": "Refuted as stated (C119_sees_every_match_refuted). C119_all_received_partial, C119_until_first_partial and C119_error_iff say exactly what arrives."
  },
  {
   "property": "C120",
   "status": "partial",
   "theorems": [
    "C120_invocation_alongside_mem",
    "C120_invocation_alongside_redis",
    "C120_handed_out_once_partial",
    "C120_handed_out_once_redis_partial",
    "C120_handed_out_once_refuted",
    "C120_handed_out_once_redis_refuted"
   ],
   "note": "Refuted as stated, with witnesses for both stores and both values of the wait setting (C120_handed_out_once_refuted: the deactivation is answered but not applied; C120_handed_out_once_redis_refuted: Redis refuses the deactivation, which is only logged). Proved for snapshots that begin when all stored updates have been applied (in-memory), and for any caught-up instance if the deactivations were stored (Redis)."
  },
  {
   "property": "C121",
   "status": "partial",
   "theorems": [
    "C121_no_race_refuted",
    "C121_race_iff",
    "C121_no_race_partial",
    "C121_every_message_races",
    "C121_waits_for_matches",
    "C121_names_error_refuted",
    "C121_message_value",
    "C121_nil_or_later_outcome",
    "C121_names_error_partial"
   ],
   "note": "Both parts refuted with an execution (C121_no_race_refuted, C121_names_error_refuted): the match goroutine logs the function goroutine's variable err (:641) instead of its own errs, while the function goroutine assigns to it (:593). C121_race_iff says exactly which executions have a race, C121_every_message_races that every finished execution with such a message has one, C121_no_race_partial that without failed deactivations there is none. C121_message_value and C121_nil_or_later_outcome say exactly what the message contains; C121_names_error_partial that there is one only after a failure."
  },
  {
   "property": "C122",
   "status": "partial",
   "theorems": [
    "C122_tickets_offered_refuted",
    "C122_one_ticket_spoils_all",
    "C122_too_large_ticket_exists",
    "C122_tickets_offered_partial",
    "C122_matches_arrive_refuted",
    "C122_matches_received",
    "C122_first_too_large",
    "C122_match_weight",
    "C122_matches_arrive_partial",
    "C122_match_says_whose"
   ],
   "note": "Refuted twice (C122_tickets_offered_refuted, C122_matches_arrive_refuted). Exact: C122_matches_received and C122_first_too_large say what arrives; C122_one_ticket_spoils_all; restrictions that hold with _partial (sizes of tickets). Missing from the full claim: tickets and matches over 4 MiB, for which it is false."
  },
  {
   "property": "C123",
   "status": "partial",
   "theorems": [
    "C123_rejected_tickets_return_partial",
    "C123_rejected_tickets_return_redis_partial",
    "C123_rejected_tickets_return_refuted",
    "C123_rejected_tickets_return_redis_refuted"
   ],
   "note": "Refuted with runs in both stores (C123_rejected_tickets_return_refuted, C123_rejected_tickets_return_redis_refuted). The _partial theorems prove it when every function that returned a match with the ticket ended normally (with Redis: and the deactivations got good answers). Missing: functions that fail, for which it is false."
  },
  {
   "property": "C124",
   "status": "partial",
   "theorems": [
    "C124_failed_activation_logged_refuted",
    "C124_failed_activation_logged_partial",
    "C124_activation_http_exact",
    "C124_failed_activation_noticed_refuted",
    "C124_failed_activation_noticed_partial",
    "C124_failed_creation_logged",
    "C124_creation_omcore",
    "C124_one_attempt",
    "C124_failed_activation_repeated_refuted"
   ],
   "note": "Refuted: C124_failed_activation_logged_refuted, C124_failed_activation_noticed_refuted, C124_failed_activation_repeated_refuted. C124_failed_activation_logged_partial and C124_activation_http_exact say exactly what is logged; C124_failed_activation_noticed_partial that om-core's own errors are noticed over HTTP; C124_failed_creation_logged and C124_creation_omcore are exact for CreateTicket; C124_one_attempt that a queued id is in one call only. Missing from the full claim: activations over HTTP and repeated attempts, for which it is false."
  },
  {
   "property": "C125",
   "status": "proved",
   "theorems": [
    "C125_memory_calls_return",
    "C125_memory_updates_applied",
    "C125_memory_active",
    "C125_memory_fair_exists",
    "C125_redis_calls_return",
    "C125_redis_updates_applied",
    "C125_redis_active",
    "C125_redis_fair_exists"
   ],
   "note": "Fairness is an assumption about the Go scheduler, the timers and the store, stated in Spec/FairSpec.v. It says among other things that every Redis command is answered some time or fails: the connection is used without a read timeout. The existence theorems show that the assumptions are not contradictory; C125_example_unfair shows that without them a call need not return."
  },
  {
   "property": "C126",
   "status": "proved",
   "theorems": [
    "C126_memory_ends",
    "C126_memory_matched_retires",
    "C126_memory_empty_match_fatal",
    "C126_memory_fair_exists",
    "C126_redis_ends",
    "C126_redis_matched_retires",
    "C126_redis_empty_match_fatal",
    "C126_redis_fair_exists"
   ],
   "note": "Fairness of the invocation is stated in Spec/FairInvokeSpec.v: the stream of a function ends at the latest by its timeout, stream.Send returns, and the Go scheduler holds up no goroutine; that of the server is that of C125. An execution that does not end has no crash in it, so the theorems are about servers that do not crash; C126_*_empty_match_fatal says which matches they cannot have received. Existence of such executions is C126_*_fair_exists."
  },
  {
   "property": "C127",
   "status": "partial",
   "theorems": [
    "C127_few_series_refuted",
    "C127_series_per_count",
    "C127_series_per_length",
    "C127_series_per_name",
    "C127_sources_partial",
    "C127_kept_exactly",
    "C127_few_series_partial"
   ],
   "note": "Refuted: the error text is an attribute of the error counter and has the number of ids asked for (C127_series_per_count: up to 2096652 series per method with the default limit) or the length of an oversized message (C127_series_per_length: a 5-byte header is enough, up to 2^32 - 4194305 per method); the name of a function is chosen by the caller (C127_series_per_name; a comment at main.go:693-699 mentions this one). C127_sources_partial: there are no other sources; C127_few_series_partial: without them there are at most 25 series and one per function name. The texts of grpc-go and the SDK's keeping of every attribute set are modelled from those libraries at the versions in go.mod; error texts for damaged messages, deadlines and cancellations are not modelled."
  },
  {
   "property": "C128",
   "status": "partial",
   "theorems": [
    "C128_failures_end_refuted",
    "C128_failures_logged_refuted",
    "C128_http_failure_logged_refuted",
    "C128_failures_end_partial",
    "C128_other_failures_end_partial",
    "C128_goes_on",
    "C128_ends_for_a_reason",
    "C128_settles"
   ],
   "note": "Refuted twice: start and its two goroutines share one variable err without synchronisation. If the gRPC server fails before start has assigned the result of registering the gateway to err, the failure can be overwritten by nil: the process then goes on with its HTTP gateway only (C128_failures_end_refuted), or ends with the message <nil> (C128_failures_logged_refuted). The partial theorems show that this is the only case; C128_goes_on and C128_ends_for_a_reason characterise what the process can come to, C128_settles that it gets there. The model takes assignments to err as atomic; the Go memory model gives racy programs less than that."
  },
  {
   "property": "C129",
   "status": "partial",
   "theorems": [
    "C129_given_up_not_executed_refuted",
    "C129_executed_anyway_partial",
    "C129_changes_nothing",
    "C129_watch_ends_refuted",
    "C129_watch_ends_iff_partial"
   ],
   "note": "Refuted as stated: the Ctx of an UpdateRequest is never read and WatchAssignments never looks at its stream's context. C129_executed_anyway_partial: under fair scheduling every update of every call is applied, given up or not. C129_watch_ends_iff_partial: exact condition for a watch to end by itself. C129_changes_nothing: hang-ups change nothing."
  },
  {
   "property": "C130",
   "status": "partial",
   "theorems": [
    "C130_core_never_panics",
    "C130_core_waits_for_all",
    "C130_core_wait_returns",
    "C130_activation_never_panics_refuted",
    "C130_activation_panics_iff_partial",
    "C130_activation_misuse",
    "C130_activation_reused",
    "C130_activation_never_negative",
    "C130_activation_safe_partial",
    "C130_activation_refines"
   ],
   "note": "Refuted for activationWg: Add is called inside the started goroutine, so a late Add meets a Done that is ending (misuse) or a Wait that is waking up (reused). C130_activation_panics_iff_partial: possible exactly when more than 500 ids arrive. For mmfwg and tdwg the full claim holds: C130_core_never_panics, C130_core_waits_for_all, C130_core_wait_returns."
  },
  {
   "property": "C131",
   "status": "proved",
   "theorems": [
    "C131_watch_ends",
    "C131_memory_watch_served",
    "C131_memory_watch_complete",
    "C131_redis_watch_served",
    "C131_redis_watch_complete",
    "C131_memory_fair_exists",
    "C131_redis_fair_exists"
   ],
   "note": "Infinite executions of a watch beside a server (in-memory or Redis). Fairness: each goroutine of the watch, the queue goroutines and the call are scheduled infinitely often when enabled (Spec/FairWatchSpec.v); with Redis every poll is answered and the stream is not trimmed before it is read. That such executions exist for every finite execution to a normal end is proved too, so the theorems are not vacuous. Losing an assignment to the TTL is a disjunct, not excluded."
  },
  {
   "property": "C132",
   "status": "partial",
   "theorems": [
    "C132_monotonic_writes_partial",
    "C132_monotonic_writes_in_memory",
    "C132_read_your_writes_partial",
    "C132_read_your_writes_in_memory_partial",
    "C132_not_before_applied",
    "C132_monotonic_reads",
    "C132_monotonic_snapshots_partial",
    "C132_writes_follow_reads",
    "C132_writes_follow_snapshots",
    "C132_writes_follow_reads_everywhere",
    "C132_monotonic_writes_refuted",
    "C132_read_your_writes_refuted",
    "C132_read_your_writes_in_memory_refuted",
    "C132_monotonic_snapshots_refuted",
    "C132_monotonic_across_refuted"
   ],
   "note": "Writes follow reads holds in full. Monotonic writes is refuted: after a broken connection a call is told OK and its XADD can be executed after that of the next call; proved for calls whose answers all carry an id, and for every call with the in-memory store. Read your writes is refuted for both stores: the answer comes before the instance has applied its own update; proved from the moment it is applied, with the converse. Monotonic reads: what is applied is never taken back, and an active ticket stays in all snapshots of its instance; refuted for tickets that a snapshot shows before they are active, and across instances."
  },
  {
   "property": "C133",
   "status": "partial",
   "theorems": [
    "C133_answers_stay",
    "C133_cut_off_for_good",
    "C133_no_new_calls",
    "C133_acknowledged_is_kept",
    "C133_tickets_survive",
    "C133_cut_off_at_most_once",
    "C133_ended_is_silent",
    "C133_ended_for_good",
    "C133_others_go_on",
    "C133_ids_after_restart_partial",
    "C133_every_call_answered_refuted",
    "C133_cut_off_not_done_refuted",
    "C133_kept_in_memory_refuted",
    "C133_ids_not_reused_in_memory_refuted"
   ],
   "note": "With Redis: answers are kept, what was acknowledged with an id stays stored, tickets outlive the instances that took the calls, cut-off calls take effect at most once and only with accepted updates, nothing comes after the connection has been dealt with, and the others can go on: proved for every pattern of stops, kills and starts. Refuted: that Stop lets the calls in flight finish (grpc Stop does not wait for handlers), that a call that was cut off has changed nothing, and, with the in-memory store, that tickets are kept over a restart and that ids are not issued again (a restart within the second of the last id repeats ids); ids are proved different when the restart is in a later second."
  },
  {
   "property": "C134",
   "status": "partial",
   "theorems": [
    "C134_matches_in_order",
    "C134_chunks_in_order",
    "C134_end",
    "C134_request_first",
    "C134_finite",
    "C134_never_stuck_iff",
    "C134_can_end_iff",
    "C134_more_room",
    "C134_samples",
    "C134_short_partial",
    "C134_never_stuck_refuted",
    "C134_request_never_ends",
    "C134_request_ends_refuted"
   ],
   "note": "Order, finiteness and the end are proved for every function. No standstill is false of the code (C134_never_stuck_refuted: om-core sends the whole request before it receives; a function that answers while it reads can block both until the deadline of 10 minutes) and so is reading to the end (C134_request_ends_refuted: om-core never calls CloseSend). Exactly when it holds: C134_never_stuck_iff, C134_can_end_iff; it holds for the sample functions (C134_samples)."
  },
  {
   "property": "C135",
   "status": "partial",
   "theorems": [
    "C135_debug_is_local_refuted",
    "C135_remote_exactly",
    "C135_local_exactly",
    "C135_served_exactly",
    "C135_remote_partial",
    "C135_moved",
    "C135_refused",
    "C135_moved_once",
    "C135_clean_iff",
    "C135_clean_skip",
    "C135_clean_dots",
    "C135_clean_root",
    "C135_clean_end"
   ],
   "note": "False of the code (C135_debug_is_local_refuted): the metrics listener at :2223 serves the same http.DefaultServeMux. Exactly which requests from other machines get which page: C135_remote_partial, C135_remote_exactly, C135_served_exactly."
  },
  {
   "property": "C136",
   "status": "partial",
   "theorems": [
    "C136_one_cycle_refuted",
    "C136_not_negative_refuted",
    "C136_no_race_refuted",
    "C136_reports_exactly",
    "C136_quiet_partial",
    "C136_steady"
   ],
   "note": "False of the code (C136_one_cycle_refuted, C136_not_negative_refuted, C136_no_race_refuted: plain global variables, read and written without synchronisation). Exactly which reports are possible: C136_reports_exactly; a scrape between two cycles is right: C136_quiet_partial."
  },
  {
   "property": "C137",
   "status": "partial",
   "theorems": [
    "C137_bodies_are_json_refuted",
    "C137_bodies_exactly_partial",
    "C137_rest_is_ignored",
    "C137_texts_exactly",
    "C137_one_value",
    "C137_read_back",
    "C137_cut_off",
    "C137_stream_decodes"
   ],
   "note": "The claim about bodies is false of the code: grpc-gateway's decoder reads one value and does not look at what follows (C137_bodies_are_json_refuted, witness '{} }'); C137_bodies_exactly_partial says exactly which bodies are taken. The other parts hold without restriction (C137_texts_exactly, C137_one_value, C137_read_back, C137_cut_off, C137_stream_decodes)."
  },
  {
   "property": "C138",
   "status": "proved",
   "theorems": [
    "C138_requests_as_bytes",
    "C138_accepted_exactly",
    "C138_api_takes_objects",
    "C138_matches_as_bytes",
    "C138_space_ends_example",
    "C138_utf8",
    "C138_utf8_written"
   ],
   "note": "Composes C118 (messages as JSON trees), C137 (grammar) and C98 (the example's lines) over bytes. Assumed of the library (WritesJson, Agree): finite doubles are written as JSON numbers and read back, times likewise, registered types write JSON that can be written; a codec with these properties is given in the example."
  },
  {
   "property": "C139",
   "status": "partial",
   "theorems": [
    "C139_never_crashes_refuted",
    "C139_counts_what_was_sent_refuted",
    "C139_line_tells_error_refuted",
    "C139_line_never_tells_partial",
    "C139_grpc_exactly_partial",
    "C139_http_exactly_partial",
    "C139_no_good_answer",
    "C139_broken_body",
    "C139_cut_off",
    "C139_status"
   ],
   "note": "Refuted three times: without an answer the example reads a field of a nil response (:285) and panics; over HTTP an error line without spaces is counted as a match; the error in the cycle's line is always that of grpc.Dial, nil. The _partial theorems say exactly what happens over gRPC and over HTTP (which calls end the process, which are counted, which errors go unnoticed). A body that breaks off never lets the cycle go on, and a cut-off answer of the gateway ends it without a crash."
  },
  {
   "property": "C140",
   "status": "partial",
   "theorems": [
    "C140_as_many_as_wanted",
    "C140_starts_not_faster",
    "C140_created_not_faster_refuted",
    "C140_each_id_once",
    "C140_never_stuck",
    "C140_all_sent_for_activation",
    "C140_fair_executions"
   ],
   "note": "Everything but the rate of creation is proved (C140_as_many_as_wanted, C140_starts_not_faster, C140_each_id_once, C140_never_stuck, C140_all_sent_for_activation; C140_fair_executions shows that fair executions exist from every reachable state). The rate of creation is refuted (C140_created_not_faster_refuted): the rate limits the starts of goroutines, whose calls may be late and come together."
  },
  {
   "property": "C141",
   "status": "proved",
   "theorems": [
    "C141_written",
    "C141_read_back",
    "C141_accepted_exactly",
    "C141_accepted_in_range",
    "C141_calendar",
    "C141_calendar_back",
    "C141_nothing_assumed"
   ],
   "note": "The calendar of Go's time package, RFC 3339 writing and the general parser are modelled; the calendar is proved against counting days, writing and reading against a grammar. The fast path of Go's parser (same results on the texts it takes) is not modelled separately."
  },
  {
   "property": "C142",
   "status": "partial",
   "theorems": [
    "C142_ids_differ_everywhere_refuted",
    "C142_ids_differ_partial",
    "C142_fixed_zone_partial",
    "C142_stamps_exactly",
    "C142_stamp_text"
   ],
   "note": "Refuted: stamps in ids are local time without zone, so where clocks are put back an hour comes twice. Proved as long as the local clock shows different hundredths, hence in every fixed zone; when stamps agree is exact for all times (_partial)."
  },
  {
   "property": "C143",
   "status": "proved",
   "theorems": [
    "C143_numbers",
    "C143_texts",
    "C143_written"
   ],
   "note": "Exact: read_int on every number text and every UTF-8 text. Finding: quoted numbers may be followed by other text; some spellings of small whole numbers are refused. parseNumberParts and normalizeToIntString of protobuf v1.33.0 as known, not on the box."
  },
  {
   "property": "C144",
   "status": "proved",
   "theorems": [
    "C144_numbers",
    "C144_texts",
    "C144_round_trip",
    "C144_written",
    "C144_zero",
    "C144_json",
    "C144_nothing_assumed",
    "C144_requests_as_bytes"
   ],
   "note": "ParseFloat and the shortest format are modelled by what they compute, not by their algorithms; the theorems show that this definition has the properties. Texts with more than 9000 digits and exponents from 100000 on are outside C144_numbers (strconv does not look at all digits of such exponents)."
  },
  {
   "property": "C145",
   "status": "proved",
   "theorems": [
    "C145_trailers",
    "C145_grpc",
    "C145_grpc_bad_text",
    "C145_always_text",
    "C145_unreadable_details",
    "C145_code_sent",
    "C145_http",
    "C145_http_success",
    "C145_activations"
   ],
   "note": "Model of the trailers of grpc-go and of the gateway's error answers. Fits: the code is an int32 >= 0, the encoded status is below 2^64 bytes and type URLs are UTF-8."
  },
  {
   "property": "C146",
   "status": "partial",
   "theorems": [
    "C146_format",
    "C146_core",
    "C146_example_page",
    "C146_calls",
    "C146_expiry_sum",
    "C146_registered",
    "C146_every_metric_refuted",
    "C146_every_metric_partial",
    "C146_every_metric_example_partial"
   ],
   "note": "C146_every_metric is false of the code (five registered metrics are never recorded); the two _partial theorems say exactly which metrics appear. Everything else in the statement is proved; series with labels that are not UTF-8 are left out by the library, which CoreShows says."
  },
  {
   "property": "C147",
   "status": "partial",
   "theorems": [
    "C147_bounded",
    "C147_reached_refuted",
    "C147_promptly_refuted",
    "C147_reached_partial",
    "C147_promptly_partial",
    "C147_other_at_once",
    "C147_silence_costs",
    "C147_refused",
    "C147_refused_both",
    "C147_silent",
    "C147_never",
    "C147_configured"
   ],
   "note": "C147_reached and C147_promptly are false of the code; the _partial theorems have conditions on the time per address and on the addresses before the one that accepts. Bounds, refusals and silence are proved in full."
  },
  {
   "property": "C148",
   "status": "partial",
   "theorems": [
    "C148_readable",
    "C148_counts",
    "C148_adds_up_refuted",
    "C148_adds_up_partial",
    "C148_active_refuted",
    "C148_active_partial"
   ],
   "note": "C148_adds_up (ids without tickets can be inactive) and C148_active (updates between the reads) are false of the code; the _partial theorems give the exact equation and the case without changes."
  },
  {
   "property": "C149",
   "status": "partial",
   "theorems": [
    "C149_tells_debug",
    "C149_tells_info",
    "C149_columns",
    "C149_each_invalid",
    "C149_reasons",
    "C149_names_refuted",
    "C149_formatted_refuted",
    "C149_formatted_partial",
    "C149_unassigned_refuted",
    "C149_unassigned_partial"
   ],
   "note": "C149_names (the line about an invalid pool has only the reason), C149_formatted (logger.Error is called with a format) and C149_unassigned (ids without tickets are counted) are false of the code; C149_reasons and the two _partial theorems are exact."
  },
  {
   "property": "C150",
   "status": "partial",
   "theorems": [
    "C150_tells",
    "C150_chunk_lines",
    "C150_two_digits",
    "C150_rounding",
    "C150_noticed_refuted",
    "C150_noticed_partial",
    "C150_not_reached",
    "C150_why_refuted",
    "C150_why_partial",
    "C150_named_refuted",
    "C150_named_partial"
   ],
   "note": "C150_noticed (functions that are not reached), C150_why (only errors of grpc.Dial are in the log) and C150_named (functions of type REST) are false of the code; the _partial theorems are exact."
  },
  {
   "property": "C151",
   "status": "partial",
   "theorems": [
    "C151_within_refuted",
    "C151_some_bound_refuted",
    "C151_bounded_partial",
    "C151_within_partial",
    "C151_exact",
    "C151_same",
    "C151_handover",
    "C151_all_taken",
    "C151_silent",
    "C151_configured"
   ],
   "note": "Full claims (over within the limit; within any time that depends on the limit) refuted with witnesses: a match just before the limit, a slow caller. Proved for all executions: bound with the deactivation, 100 ms and all sends; within the limit if functions that end normally have no matches; the exact time if sending takes no time."
  },
  {
   "property": "C152",
   "status": "partial",
   "theorems": [
    "C152_in_time",
    "C152_in_order",
    "C152_same_loop",
    "C152_poll_length",
    "C152_within_wait_refuted",
    "C152_twice_the_wait",
    "C152_soon_iff",
    "C152_check_iff",
    "C152_default"
   ],
   "note": "Full claim (in the cache after OM_CACHE_IN_WAIT_TIMEOUT_MS) refuted with a schedule. Proved for all executions: a bound for each update by the number of updates ahead of it, order, and that twice the setting is the exact bound if work takes no time. In-memory store only."
  },
  {
   "property": "C153",
   "status": "proved",
   "theorems": [
    "C153_in_time",
    "C153_in_time_any",
    "C153_in_order",
    "C153_same_loop",
    "C153_question_length",
    "C153_soon_iff",
    "C153_check_iff",
    "C153_default"
   ],
   "note": ""
  },
  {
   "property": "C154",
   "status": "proved",
   "theorems": [
    "C154_handed_over",
    "C154_answers",
    "C154_in_time",
    "C154_same_loops",
    "C154_exact",
    "C154_default",
    "C154_late_when_full"
   ],
   "note": ""
  },
  {
   "property": "C155",
   "status": "proved",
   "theorems": [
    "C155_handed_over",
    "C155_in_time",
    "C155_in_time_any",
    "C155_same_loops",
    "C155_exact",
    "C155_default"
   ],
   "note": ""
  },
  {
   "property": "C156",
   "status": "proved",
   "theorems": [
    "C156_same_cache_memory",
    "C156_same_cache_redis",
    "C156_memory",
    "C156_redis",
    "C156_activated",
    "C156_default_memory",
    "C156_default_redis"
   ],
   "note": "Caches of the timed loops as histories; effects of activate, deactivate, create and assign after the limits of C154 and C155; that the ticket is created once under its id is a hypothesis (C08, C10)."
  },
  {
   "property": "C157",
   "status": "proved",
   "theorems": [
    "C157_memory",
    "C157_redis",
    "C157_memory_any_time",
    "C157_reading_memory",
    "C157_reading_redis"
   ],
   "note": "The continuation is one that the goroutines can take (the scheduler may delay them longer); with C154 and C155, every run in which time passes has everything applied after the limits."
  },
  {
   "property": "C158",
   "status": "proved",
   "theorems": [
    "C158_requests",
    "C158_answers",
    "C158_understood",
    "C158_enum_names"
   ],
   "note": "Extensions are excluded: how the members of an embedded message are named is up to its type (parameter of the model)."
  },
  {
   "property": "C159",
   "status": "proved",
   "theorems": [
    "C159_requests",
    "C159_understood",
    "C159_unknown_ignored",
    "C159_lists_in_order",
    "C159_quotes"
   ],
   "note": "Extensions are compared as they are (their members are up to their types)."
  },
  {
   "property": "C160",
   "status": "proved",
   "theorems": [
    "C160_messages",
    "C160_unknown",
    "C160_moved",
    "C160_order_matters",
    "C160_replicas"
   ],
   "note": "C160_messages for all byte strings related by wlike (Spec/WireLikeSpec.v), C160_unknown and C160_moved for encodings written field by field, C160_order_matters for fields with the same number, C160_replicas for updates in the caches of replicas. Groups, which proto3 does not have, are errors in the model"
  },
  {
   "property": "C161",
   "status": "proved",
   "theorems": [
    "C161_fields",
    "C161_refused",
    "C161_prefix",
    "C161_concat"
   ],
   "note": "C161_fields, C161_refused, C161_prefix and C161_concat for all byte strings, against the grammar of Spec/WireGrammarSpec.v; groups are left out of grammar and model"
  }
 ]
}