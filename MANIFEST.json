{"claims":[
{"property": "C01", "status": "proved", "theorems": ["C01_enqueue_stores", "C01_enqueue_succeeds"], "note": "In-memory backend, one enqueue at a time; needs fewer than 2^32 enqueues (ids wrap)."},
{"property": "C02", "status": "proved", "theorems": ["C02_ids_unique"], "note": "In-memory backend, any interleaving, up to 2^32 enqueue calls."},
{"property": "C03", "status": "proved", "theorems": ["C03_never_lost", "C03_never_lost_sequential", "C03_never_lost_postgres", "C03_inserted_stays_postgres"], "note": "Both backends, any interleaving."},
{"property": "C04", "status": "proved", "theorems": ["C04_hand_out"], "note": "In-memory backend."},
{"property": "C05", "status": "proved", "theorems": ["C05_hand_out_order"], "note": "In-memory backend."},
{"property": "C06", "status": "partial", "theorems": ["C06_not_twice_partial", "C06_not_twice_refuted", "C06_not_twice_without_criteria"], "note": "The code violates the property: the write-back of a conflicting unique enqueue can release a job that is executing. Proved for executions without unique enqueues, and with the write-back as the only exception."},
{"property": "C07", "status": "partial", "theorems": ["C07_do_nothing_partial", "C07_do_nothing_refuted"], "note": "Holds when nothing overlaps; refuted for overlapping calls."},
{"property": "C08", "status": "partial", "theorems": ["C08_one_insert_partial", "C08_one_insert_refuted", "C08_one_insert_postgres", "C08_no_two_inserts_postgres"], "note": "In-memory backend: holds for calls one after the other; refuted for overlapping calls. Postgres: proved for criteria without a key (with one see C52)."},
{"property": "C09", "status": "proved", "theorems": ["C09_sequential_uniqueness"], "note": "In-memory backend."},
{"property": "C10", "status": "proved", "theorems": ["C10_conflict_replacement", "C10_conflict_replacement_postgres"], "note": "Both backends, one operation at a time; Postgres for values the columns can keep."},
{"property": "C100", "status": "proved", "theorems": ["C100_given", "C100_stream", "C100_executor", "C100_no_stray_stream", "C100_poll", "C100_asks"], "note": "For processes sharing a Postgres database (Fleet.v)."},
{"property": "C101", "status": "proved", "theorems": ["C101_made", "C101_calls", "C101_answer", "C101_acted"], "note": "For processes sharing a Postgres database (Fleet.v)."},
{"property": "C102", "status": "proved", "theorems": ["C102_holders", "C102_exclusive", "C102_exclusive_refuted"], "note": "For processes sharing a Postgres database (Fleet.v). A program that reruns a job while it is being run does get it run twice at once (witness)."},
{"property": "C103", "status": "proved", "theorems": ["C103_waits", "C103_ended"], "note": "For processes sharing a Postgres database (Fleet.v)."},
{"property": "C104", "status": "proved", "theorems": ["C104_task", "C104_all"], "note": "For processes sharing a Postgres database (Fleet.v). Possibility: some schedule of the tasks' own steps and of the calls ends them; fairness of the runtime is not modelled. Only prunes that keep rows from each other may have to be ended by Postgres (its deadlock detector). Concurrency limits are non-negative, as in the code (`Option<usize>`)."},
{"property": "C105", "status": "proved", "theorems": ["C105_ready", "C105_worker", "C105_all", "C105_always_ready", "C105_done"], "note": "For processes sharing a Postgres database (Fleet.v) whose waiting rows can be read and decoded. Possibility: some schedule of the workers' own steps and calls does the work; fairness of the runtime is not modelled. C105_ready is about a worker between items of its stream (w_transit = None), C105_always_ready is not; limits are non-negative, as in the code."},
{"property": "C106", "status": "proved", "theorems": ["C106_ends", "C106_all", "C106_bound", "C106_loop_refuted"], "note": "For whole programs on in-memory backends (World.v). Fairness is a hypothesis (FairSpec.v): calls that have begun go on, weak fairness for each task's steps, strong fairness for a loop's leaving (tokio's select! picks among ready branches at random). C106_loop_refuted shows that the last is needed. Limits are non-negative, as in the code."},
{"property": "C107", "status": "proved", "theorems": ["C107_done", "C107_calls"], "note": "For whole programs on in-memory backends (World.v), under the fairness hypotheses of FairSpec.v: calls that have begun go on, and the steps of each job in hand are weakly fair; a job's run that never returns is excluded by these."},
{"property": "C108", "status": "proved", "theorems": ["C108_ends", "C108_all", "C108_bound", "C108_loop_refuted"], "note": "For processes that share Postgres (Fleet.v), from every sound table. Fairness is a hypothesis (FairSpec.v): no call stands still for ever (Postgres's lock queues and deadlock detection), weak fairness for each task's steps, strong fairness for a loop's leaving. C108_loop_refuted shows that the last is needed."},
{"property": "C109", "status": "proved", "theorems": ["C109_done", "C109_calls"], "note": "For processes that share Postgres (Fleet.v), under the fairness hypotheses of FairSpec.v: no call stands still for ever, and the steps of each job in hand are weakly fair. The answer may be an error: a report that fails is C84's and C87's subject."},
{"property": "C11", "status": "partial", "theorems": ["C11_keyless_criteria_refuted", "C11_keyless_criteria_postgres"], "note": "Holds on Postgres; the in-memory backend violates it (witness)."},
{"property": "C110", "status": "proved", "theorems": ["C110_taken", "C110_cleared"], "note": "For whole programs on in-memory backends (World.v), under the fairness hypotheses of FairSpec.v: calls go on, polls of the worker's stream and the steps of each job in hand are weakly fair, and the clock passes every instant. The worker stays at work: a worker that crashes is C39's subject, a poisoned store C30's."},
{"property": "C111", "status": "proved", "theorems": ["C111_taken", "C111_cleared"], "note": "For processes sharing Postgres (Fleet.v), under the fairness hypotheses of FairSpec.v. Hypotheses beyond C110: nobody but streams locks the rows, the stream's queries do not fail, attempts fit the column. The line is bounded by priority because the query orders by priority first: jobs of a better priority that keep coming in may hold up the others."},
{"property": "C112", "status": "proved", "theorems": ["C112_overtaken"], "note": "For processes sharing Postgres (Fleet.v). The other side of C111: why its line of jobs is bounded by a priority. Clock readings are all at or after T; they are not required to be in order."},
{"property": "C113", "status": "proved", "theorems": ["C113_starts", "C113_codecs", "C113_unlimited", "C113_attempts", "C113_requests", "C113_flaky", "C113_flaky_life", "C113_discarded_life", "C113_timeout", "C113_timeout_life", "C113_cancelled", "C113_basic", "C113_cron", "C113_snooze", "C113_snooze_life", "C113_snooze_refuted", "C113_pruner"], "note": "The lives are those of a job to which the backend does what C13 and C53 prove it does. Which of the two timers of the timeout job fires first is an oracle. C113_snooze_refuted shows what happens when the worker's clock is behind the database's. The clock is at least four seconds from the end of chrono's range."},
{"property": "C114", "status": "partial", "theorems": ["C114_override_partial", "C114_either", "C114_override_refuted"], "note": "Holds while the first job still waits (status scheduled) and is the only one that does. Refuted otherwise: the criteria keep their default of conflicting with scheduled jobs only, so when a worker has taken the first job a second one is made and the first keeps its priority."},
{"property": "C115", "status": "proved", "theorems": ["C115_ends", "C115_query", "C115_panics"], "note": "For the program of ExampleMain.v on Postgres (Pg.v), operation by operation; what the two jobs' runs report is C113_basic. The hypotheses on the history (program_op) are about what others may do: an edit, a conflicting unique job with replace, or a prune by other rules could take a job out of the query."},
{"property": "C116", "status": "proved", "theorems": ["C116_every_tick"], "note": "For the cron requests of the example on Postgres (Pg.v), with the hash functions of FxHash.v computed. The stored key is the identifier made from the key, not the key (C52), so equal requests do not conflict; C44 has this as its witness, here it is shown for all firings."},
{"property": "C12", "status": "partial", "theorems": ["C12_same_decision_partial", "C12_same_decision_refuted"], "note": "Agree for criteria without key and time window when no stored job has a key; otherwise they differ (witnesses)."},
{"property": "C13", "status": "proved", "theorems": ["C13_status_operations", "C13_status_operations_postgres", "C13_reports_serial_postgres"], "note": "Both backends; Postgres for values the columns can keep, and overlapping."},
{"property": "C14", "status": "proved", "theorems": ["C14_attempt_accounting", "C14_attempt_accounting_postgres", "C14_attempts_overlapping_postgres"], "note": "In memory for histories of at most 2^31-1 operations; on Postgres as long as errors are recorded for attempts of 16 bits."},
{"property": "C15", "status": "proved", "theorems": ["C15_snooze_restores", "C15_snooze_restores_postgres"], "note": "Both backends; Postgres for values the columns can keep."},
{"property": "C16", "status": "proved", "theorems": ["C16_error_history", "C16_append_only", "C16_error_history_postgres", "C16_errors_overlapping_postgres"], "note": "In memory for histories of at most 2^31-1 operations; on Postgres as long as errors are recorded for attempts of 16 bits."},
{"property": "C17", "status": "partial", "theorems": ["C17_attempts_partial", "C17_none_allowed_refuted", "C17_lowered_refuted"], "note": "Proved for requests that allow at least one attempt and do not change the number for existing jobs; false otherwise (witnesses)."},
{"property": "C18", "status": "proved", "theorems": ["C18_discarded_at_last"], "note": "In-memory store with workers."},
{"property": "C19", "status": "proved", "theorems": ["C19_rerun"], "note": "In-memory backend."},
{"property": "C20", "status": "partial", "theorems": ["C20_cancelled_partial", "C20_cancelled_refuted", "C20_closed_jobs_partial"], "note": "Holds unless a worker still holding the job reports a retry or snooze, or a conflicting unique enqueue writes the job back; the first case is refuted."},
{"property": "C21", "status": "proved", "theorems": ["C21_finished_stays"], "note": "In-memory backend."},
{"property": "C22", "status": "proved", "theorems": ["C22_query_exact", "C22_sat_decided"], "note": "In-memory backend."},
{"property": "C23", "status": "proved", "theorems": ["C23_and", "C23_or", "C23_not", "C23_translation", "C23_translation_defined", "C23_older_than", "C23_within_the_last"], "note": ""},
{"property": "C24", "status": "partial", "theorems": ["C24_executor_query_memory", "C24_executor_query_postgres_partial", "C24_executor_query_postgres_exact", "C24_executor_query_postgres_refuted"], "note": "C24_executor_query_postgres_exact: exactly which jobs a query through an executor shows. Proved for the in-memory backend and for conjunctions on Postgres; false for disjunctions on Postgres, whose SQL lacks parentheses (witness)."},
{"property": "C25", "status": "partial", "theorems": ["C25_age_pruning_partial", "C25_age_pruning_refuted"], "note": "In-memory backend prunes both sides of the clock."},
{"property": "C26", "status": "partial", "theorems": ["C26_length_pruning_partial", "C26_length_pruning_refuted"], "note": "In-memory backend removes the n oldest instead of keeping the n newest."},
{"property": "C27", "status": "proved", "theorems": ["C27_prune_scope"], "note": "In-memory backend."},
{"property": "C28", "status": "proved", "theorems": ["C28_scope", "C28_removes_only"], "note": "Every expression that type-checks; names are arbitrary strings."},
{"property": "C29", "status": "proved", "theorems": ["C29_no_lost_wake_up", "C29_wake_up_arrives", "C29_one_wake_up_each"], "note": "In-memory backend."},
{"property": "C30", "status": "proved", "theorems": ["C30_sleep_bounded", "C30_timer", "C30_sees_earliest", "C30_hands_out_when_due", "C30_sleep_or_try", "C30_poisoned"], "note": "In-memory backend."},
{"property": "C31", "status": "proved", "theorems": ["C31_paused_silent", "C31_pausing_keeps_jobs"], "note": ""},
{"property": "C32", "status": "proved", "theorems": ["C32_turn_comes"], "note": "In-memory backend."},
{"property": "C33", "status": "proved", "theorems": ["C33_formula", "C33_no_wrong_delay", "C33_bounds", "C33_custom"], "note": "For every constructor followed by any setters; exponential backoff works in whole seconds."},
{"property": "C34", "status": "partial", "theorems": ["C34_monotone_partial", "C34_monotone_refuted"], "note": "Fails for an exponential base below one second at attempt 0, and for a polynomial power overflowing i32 without overflow checks."},
{"property": "C35", "status": "proved", "theorems": ["C35_absolute", "C35_relative", "C35_not_a_number", "C35_infinite"], "note": "Relative jitter up to half a millisecond and the stated f64 error; uses the axioms of the standard library's real numbers."},
{"property": "C36", "status": "proved", "theorems": ["C36_default_policy", "C36_one_tenth"], "note": ""},
{"property": "C37", "status": "partial", "theorems": ["C37_never_crashes_partial", "C37_never_crashes_refuted", "C37_exponential_capped", "C37_exponential_uncapped"], "note": "Several API-constructible configurations panic; proved where no intermediate result leaves its type."},
{"property": "C38", "status": "proved", "theorems": ["C38_right", "C38_once", "C38_arrives"], "note": "As long as the worker lives; what kills it is C39."},
{"property": "C39", "status": "partial", "theorems": ["C39_worker_survives_partial", "C39_others_unaffected", "C39_counter_refuted", "C39_counter_reachable_refuted", "C39_snooze_refuted", "C39_stream_panic", "C39_stream_panic_refuted"], "note": "Proved for jobs whose counters and delays are in range; out-of-range ones kill the worker, and so does a panicking stream (witnesses)."},
{"property": "C40", "status": "partial", "theorems": ["C40_resolved_partial", "C40_unreadable", "C40_no_report_refuted", "C40_stays_executing_refuted", "C40_lost_report_refuted"], "note": "Proved for jobs that decode; undecodable jobs stay executing (witness). On Postgres so do jobs whose report is refused."},
{"property": "C41", "status": "proved", "theorems": ["C41_limit", "C41_takes", "C41_default"], "note": "for_each_concurrent modelled as a set of message futures."},
{"property": "C42", "status": "partial", "theorems": ["C42_takes_no_more", "C42_all_reported", "C42_stops_exactly", "C42_can_stop", "C42_nothing_else_lost", "C42_closed_is_empty", "C42_lost_in_transit_refuted"], "note": "Proved for jobs the worker has taken from the stream; a job in transit inside the Postgres stream is lost (witness)."},
{"property": "C43", "status": "proved", "theorems": ["C43_in_order", "C43_on_schedule", "C43_none_skipped", "C43_none_skipped_later", "C43_in_time", "C43_goes_on", "C43_stops", "C43_job", "C43_no_job", "C43_criteria"], "note": "Schedule is an arbitrary set of instants with a next-instant oracle; one clock that never goes back; sleeps never end early."},
{"property": "C44", "status": "partial", "theorems": ["C44_in_memory_all_added", "C44_one_job_refuted", "C44_postgres_one_job_refuted"], "note": "False on both backends: every node's tick adds a job (witnesses)."},
{"property": "C45", "status": "partial", "theorems": ["C45_config", "C45_every_rule", "C45_in_rule_order", "C45_failures_do_not_stop", "C45_in_memory_partial", "C45_panic_ends", "C45_limit_refuted", "C45_panic_stops_refuted"], "note": "All rules run whatever errors they return; the concurrency limit is not respected (witness) and a panicking rule stops the others (witness)."},
{"property": "C46", "status": "proved", "theorems": ["C46_request", "C46_builds", "C46_refused", "C46_stored", "C46_error_passed_on"], "note": "Serialization is an oracle."},
{"property": "C47", "status": "partial", "theorems": ["C47_round_trip_partial", "C47_round_trip_refuted"], "note": "Proved for metadata types no value of which serializes to null; the code loses such metadata (witness)."},
{"property": "C48", "status": "partial", "theorems": ["C48_conversion_inverse_partial", "C48_update_after_query", "C48_query_exact_partial", "C48_query_panics", "C48_conversion_outcome", "C48_query_unreadable", "C48_never_fails_refuted"], "note": "Proved for counters that fit u16; the code panics otherwise (witness: rerun of a job with 65535 attempts)."},
{"property": "C49", "status": "proved", "theorems": ["C49_set_once", "C49_addressed", "C49_acts_on_backend"], "note": "Setting the cell is one atomic step."},
{"property": "C50", "status": "partial", "theorems": ["C50_exact_count_partial", "C50_some_job", "C50_no_backend", "C50_broken_backend", "C50_which_backend", "C50_one_job_refuted"], "note": "All forms except '1 job, to: b', which only checks that there is some job (witness)."},
{"property": "C51", "status": "partial", "theorems": ["C51_query_partial", "C51_as_read", "C51_whole_clause", "C51_query_refuted"], "note": "C51_as_read: exactly what every query without empty parts and refused values selects. Proved for queries whose text needs no parentheses; the generated SQL is wrong for negated conjunctions, nested disjunctions and id lists (witnesses)."},
{"property": "C52", "status": "partial", "theorems": ["C52_keyed_enqueue_inserts", "C52_keyed_enqueue_refuted", "C52_wrong_conflict_refuted"], "note": "False: the stored identifier is a hash of the criteria but the lookup compares it with the bare key."},
{"property": "C53", "status": "proved", "theorems": ["C53_hand_out", "C53_exclusive", "C53_right", "C53_best_first"], "note": "Any number of overlapping calls, each advanced or failing at any moment, at the isolation level READ COMMITTED as described in PgConc.v."},
{"property": "C54", "status": "partial", "theorems": ["C54_status_round_trip", "C54_labels_round_trip", "C54_error_types_partial", "C54_error_texts_round_trip", "C54_error_types_refuted", "C54_row_reads"], "note": "Statuses and texts round-trip; three custom error names read back as built-in types (witness)."},
{"property": "C55", "status": "partial", "theorems": ["C55_status_operations_partial", "C55_status_operations_refuted"], "note": "Proved for values the columns can keep and attempts that fit 16 bits; otherwise the backends differ (witnesses)."},
{"property": "C56", "status": "partial", "theorems": ["C56_update_postgres", "C56_update_memory_refuted"], "note": "Holds on Postgres; the in-memory update replaces the whole job (witness)."},
{"property": "C57", "status": "partial", "theorems": ["C57_keeps_working_partial", "C57_keeps_working_refuted"], "note": "A prune with an oversized age breaks the backend for everybody."},
{"property": "C58", "status": "proved", "theorems": ["C58_wake_ups"], "note": ""},
{"property": "C59", "status": "proved", "theorems": ["C59_prune_by_age", "C59_prune_by_length"], "note": "Names without zero bytes and cut-offs the database can represent."},
{"property": "C60", "status": "proved", "theorems": ["C60_life_cycle"], "note": "In-memory store with any number of workers."},
{"property": "C61", "status": "proved", "theorems": ["C61_criteria", "C61_replace", "C61_all_statuses"], "note": "The hash function is an oracle."},
{"property": "C62", "status": "proved", "theorems": ["C62_payload_kept", "C62_payload_kept_postgres"], "note": "Both backends, one operation at a time."},
{"property": "C63", "status": "proved", "theorems": ["C63_ids_differ", "C63_never_reused", "C63_ids_overlapping", "C63_returned_id_overlapping"], "note": "One operation at a time, and overlapping."},
{"property": "C64", "status": "proved", "theorems": ["C64_stored_time", "C64_kept"], "note": "As sqlx encodes times."},
{"property": "C65", "status": "partial", "theorems": ["C65_failed_partial", "C65_failed_refuted"], "note": "Holds except for hand-outs of rows that cannot be read, which stay executing (witness)."},
{"property": "C66", "status": "partial", "theorems": ["C66_readable_partial", "C66_readable_refuted"], "note": "Holds as long as errors are recorded for attempts of 16 bits; otherwise false (witness)."},
{"property": "C67", "status": "proved", "theorems": ["C67_can_finish", "C67_deadlock_refuted"], "note": "Possibility, not fairness. That prunes do have to be ended is the witness."},
{"property": "C68", "status": "proved", "theorems": ["C68_alone"], "note": ""},
{"property": "C69", "status": "partial", "theorems": ["C69_replacement_overlapping_partial", "C69_replacement_overlapping_refuted"], "note": "Fields and origin proved; the status may have changed since it was checked (witness: the data of an executing job is replaced)."},
{"property": "C70", "status": "partial", "theorems": ["C70_prune_overlapping_partial", "C70_prune_overlapping_refuted"], "note": "The specification held when the prune looked; a job handed out since is deleted all the same (witness)."},
{"property": "C71", "status": "proved", "theorems": ["C71_dates"], "note": "chrono's arithmetic as the model uses it, against an independent calendar."},
{"property": "C72", "status": "partial", "theorems": ["C72_announced", "C72_passed_on", "C72_listener_survives", "C72_no_lost_wake_up_partial", "C72_no_lost_wake_up_refuted"], "note": "Proved while the listener runs and its connection is not broken; false in general: a job scheduled after the year 9999 (or before 1) makes the listener of every process panic (witness)."},
{"property": "C73", "status": "proved", "theorems": ["C73_sleep_bounded", "C73_sees_earliest", "C73_timer", "C73_sleep_or_try"], "note": ""},
{"property": "C74", "status": "proved", "theorems": ["C74_given_once", "C74_given_as_handed_out"], "note": ""},
{"property": "C75", "status": "proved", "theorems": ["C75_hands_out_when_due", "C75_items", "C75_frame"], "note": ""},
{"property": "C76", "status": "proved", "theorems": ["C76_refused", "C76_refused_stream", "C76_prune_panics", "C76_unique_enqueue", "C76_nothing_else"], "note": ""},
{"property": "C77", "status": "partial", "theorems": ["C77_identifier", "C77_determined", "C77_keys_differ_partial", "C77_criteria_differ_refuted"], "note": "Keys that differ give different identifiers; criteria that differ need not: one key hashes like no key at all (witness)."},
{"property": "C78", "status": "proved", "theorems": ["C78_tasks", "C78_fresh", "C78_lives"], "note": ""},
{"property": "C79", "status": "proved", "theorems": ["C79_told_exactly", "C79_nothing_else", "C79_no_more_jobs", "C79_can_end", "C79_ends_only"], "note": "That a task can end is proved, not that the runtime will let it."},
{"property": "C80", "status": "partial", "theorems": ["C80_limit_partial", "C80_limit_refuted"], "note": "The limit holds for each registration; an executor with two cron schedules runs twice as many (witness)."},
{"property": "C81", "status": "partial", "theorems": ["C81_stoppable_exactly", "C81_stoppable_refuted"], "note": "Exactly when it can be done is proved; a refused set_global_backend loses the Rexecutor and its tasks run for ever (witness)."},
{"property": "C82", "status": "proved", "theorems": ["C82_first_only", "C82_unset", "C82_not_twice"], "note": ""},
{"property": "C83", "status": "partial", "theorems": ["C83_no_tick_partial", "C83_no_tick_refuted"], "note": "A sleeping loop acts after the shutdown only if it was not polled before its sleep was over; then it may (witness)."},
{"property": "C84", "status": "proved", "theorems": ["C84_life_cycle_postgres", "C84_attempts_postgres", "C84_discarded_at_last_postgres", "C84_hand_out_postgres", "C84_report_postgres", "C84_can_report_postgres", "C84_outside_postgres"], "note": "The histories are the orderly ones, defined in PgSysSpec.v."},
{"property": "C85", "status": "proved", "theorems": ["C85_memory_passes"], "note": "Tests are run one at a time; the spawned task of one test and the two streams of another are taken in order."},
{"property": "C86", "status": "partial", "theorems": ["C86_postgres_passes_partial", "C86_slow_refuted", "C86_frozen_refuted"], "note": "Proved if a step takes between a microsecond and thirty milliseconds. A test fails if steps take fifty milliseconds, another if the clock stands still (witnesses)."},
{"property": "C87", "status": "partial", "theorems": ["C87_own_answer", "C87_success", "C87_failure_partial", "C87_failure_refuted", "C87_error"], "note": "A failure means that nothing was changed except when a row that cannot be read was handed out, or when the connection breaks after the commit (witness)."},
{"property": "C88", "status": "proved", "theorems": ["C88_exact", "C88_jitter", "C88_jitter_f64"], "note": ""},
{"property": "C89", "status": "partial", "theorems": ["C89_queryable_partial", "C89_within_refuted", "C89_sqlx", "C89_bad_state", "C89_assert_enqueued"], "note": "Proved for all clocks that do not go back, except that the tests of queryable.rs need one that advances at every reading: one of them fails if it stands still (witness). The tests of lib.rs with a mock backend are left out: what they expect is checked in a spawned task whose panics are lost."},
{"property": "C90", "status": "proved", "theorems": ["C90_bounded", "C90_from_nothing", "C90_no_work_left", "C90_can_finish", "C90_snoozes_refuted"], "note": "Requests allow at least one attempt and do not change that number for existing jobs, as for C60. Hand-outs are not bounded by attempts: a job may snooze for ever (witness)."},
{"property": "C91", "status": "proved", "theorems": ["C91_bounded", "C91_readable", "C91_from_nothing", "C91_no_work_left", "C91_can_finish"], "note": "Requests allow at least one attempt and do not change that number for existing jobs, as for C84."},
{"property": "C92", "status": "proved", "theorems": ["C92_process", "C92_events"], "note": "For programs on in-memory backends (World.v)."},
{"property": "C93", "status": "proved", "theorems": ["C93_given", "C93_stream", "C93_no_stray_stream", "C93_poll", "C93_asks"], "note": "For programs on in-memory backends (World.v)."},
{"property": "C94", "status": "proved", "theorems": ["C94_made", "C94_calls", "C94_answer", "C94_acted"], "note": "For programs on in-memory backends (World.v)."},
{"property": "C95", "status": "partial", "theorems": ["C95_holders_partial", "C95_exclusive_partial", "C95_exclusive_refuted"], "note": "Proved for programs whose own calls neither enqueue with uniqueness criteria nor reopen a job; without that bound by the number of write-backs of unique enqueues and reopenings. A unique enqueue writes back what it read, so a job taken in between is taken again (witness)."},
{"property": "C96", "status": "proved", "theorems": ["C96_waits", "C96_ended"], "note": "For programs on in-memory backends (World.v)."},
{"property": "C97", "status": "proved", "theorems": ["C97_task", "C97_all"], "note": "For programs on in-memory backends (World.v). Possibility: some schedule of the tasks' own steps ends them; fairness of the runtime is not modelled. Concurrency limits are non-negative, as in the code (`Option<usize>`)."},
{"property": "C98", "status": "proved", "theorems": ["C98_worker", "C98_all"], "note": "For programs on in-memory backends (World.v) whose waiting jobs can be decoded, on stores that are not poisoned and have had at most 2^32 enqueues. Possibility: some schedule of the workers' own steps does the work; fairness of the runtime is not modelled."},
{"property": "C99", "status": "proved", "theorems": ["C99_parts", "C99_events"], "note": "For processes sharing a Postgres database (Fleet.v)."}
]}
