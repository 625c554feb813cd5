{"id": "C01", "title": "Enqueue stores exactly what was described", "statement": "A successful enqueue without uniqueness criteria adds exactly one job, with a fresh id, status scheduled, attempt 0, no errors, the requested executor/data/metadata/tags/priority/max attempts/scheduled time, no attempted/completed/cancelled/discarded time, and leaves every other stored job untouched.", "quantifier": "every store contents, every enqueue request, every clock reading", "why_tests_cant": "Tests enqueue a handful of fixed jobs into an empty store; the claim is about every store and every request, including what must not change.", "anchors": ["rexecutor/src/backend/memory.rs: InMemoryBackend::insert_new_job, EnqueuableJob::into_job"]}
{"id": "C02", "title": "Job ids are unique", "statement": "No two enqueues that add a job ever return the same id and no two stored jobs share an id, for the first 2^32 ids drawn, however concurrent callers interleave.", "quantifier": "every number of concurrent callers, every interleaving of their atomic steps, every history of fewer than 2^32 enqueues", "why_tests_cant": "Interleavings of concurrent enqueues cannot be enumerated by a test and wrap-around needs 2^32 calls.", "anchors": ["rexecutor/src/backend/memory.rs: InMemoryBackend::insert_new_job (id_counter.fetch_add)"]}
{"id": "C03", "title": "An accepted job is never lost", "statement": "Once an enqueue has returned an id, a job with that id stays in the store until a prune whose specification matches the job removes it; no other operation, alone or interleaved with others, makes it disappear.", "quantifier": "every history and interleaving of backend operations after the enqueue", "why_tests_cant": "Needs every operation at every point of every interleaving.", "anchors": ["rexecutor/src/backend/memory.rs: InMemoryBackend (all Backend methods)"]}
{"id": "C04", "title": "Only due, waiting jobs of the executor are handed out", "statement": "A job handed to a worker belongs to the requested executor, was scheduled or retryable, and was not due more than 100ms in the future; handing it out makes it executing, adds one to its attempt count, stamps the attempt time, and changes no other job. If any such job exists one is handed out.", "quantifier": "every store contents, executor name and clock reading", "why_tests_cant": "The selection predicate must be right for all combinations of status, schedule and executor.", "anchors": ["rexecutor/src/backend/memory.rs: load_job_mark_as_executing_for_executor, Job::mark_job_executing"]}
{"id": "C05", "title": "Hand-out order", "statement": "Among the jobs that may be handed out, the in-memory backend hands out one with the earliest scheduled time, ties broken by the lowest priority number, and remaining ties by enqueue order.", "quantifier": "every store contents and clock reading", "why_tests_cant": "All relative orders of (time, priority, position) in stores of every size.", "anchors": ["rexecutor/src/backend/memory.rs: load_job_mark_as_executing_for_executor (sort_by)"]}
{"id": "C06", "title": "A job is not handed out twice", "statement": "Two workers never both receive a job for the same release: between two hand-outs of a job with some id there is an operation that made it available again (retry, snooze, rerun, or an explicit job update). An enqueue that merely conflicts with an existing job under a do-nothing policy is not such an operation.", "quantifier": "every number of workers and callers and every interleaving of their atomic steps", "why_tests_cant": "The bad interleaving (snapshot, hand-out, write-back) is a narrow race a test cannot force.", "anchors": ["rexecutor/src/backend/memory.rs: load_job_mark_as_executing_for_executor, insert_unique_job, update_job", "rexecutor/src/backend.rs: Backend::subscribe_ready_jobs docs"]}
{"id": "C07", "title": "Conflicting enqueue with do-nothing changes nothing", "statement": "An enqueue whose uniqueness criteria match an existing job and whose conflict policy is do-nothing returns the id of a matching job and leaves every stored job exactly as it was, whatever other operations run at the same time.", "quantifier": "every store, every criteria, every interleaving with other operations", "why_tests_cant": "The lost update needs another operation between the read and the write-back.", "anchors": ["rexecutor/src/backend/memory.rs: insert_unique_job, update_job", "rexecutor/src/job/uniqueness_criteria.rs: Resolution::DoNothing"]}
{"id": "C08", "title": "Concurrent enqueues of the same unique job insert one job", "statement": "If several callers concurrently enqueue with the same uniqueness criteria and nothing matched before, exactly one job is inserted and all callers get its id.", "quantifier": "every number of callers and every interleaving", "why_tests_cant": "Race between the check and the insert cannot be forced in a unit test.", "anchors": ["rexecutor/src/backend/memory.rs: insert_unique_job", "rexecutor-sqlx/src/lib.rs: insert_unique_job", "rexecutor/src/job/uniqueness_criteria.rs: UniquenessCriteria docs"]}
{"id": "C09", "title": "Sequential uniqueness", "statement": "When enqueues do not overlap in time, an enqueue with uniqueness criteria inserts a job only if no stored job satisfies the criteria, otherwise inserts nothing and returns the id of a job that satisfies them.", "quantifier": "every store contents, every criteria, every clock reading", "why_tests_cant": "All combinations of key, executor, statuses, and window against stores of every size.", "anchors": ["rexecutor/src/backend/memory.rs: enqueue, insert_unique_job", "rexecutor/src/backend/queryable.rs: EnqueuableJob::matches"]}
{"id": "C10", "title": "Conflict replacement touches only what was asked", "statement": "When a unique enqueue conflicts, at most the one matching job changes, only if its status is in the replacement status list, and only the fields selected (scheduled time, data, metadata, priority, max attempts), which take the new request's values.", "quantifier": "every store, request, and replacement policy", "why_tests_cant": "Field-by-field frame condition over all flag combinations and statuses.", "anchors": ["rexecutor/src/backend/memory.rs: Job::replace, insert_unique_job", "rexecutor-sqlx/src/lib.rs: insert_unique_job", "rexecutor/src/job/uniqueness_criteria.rs: Replace"]}
{"id": "C11", "title": "Criteria without a key compare against all jobs", "statement": "Uniqueness criteria that specify no key compare the new job against all existing jobs that satisfy the rest of the criteria, whether or not those jobs were enqueued with a key.", "quantifier": "every store and every key-less criteria", "why_tests_cant": "Needs stores mixing keyed and unkeyed jobs in every combination.", "anchors": ["rexecutor/src/backend/queryable.rs: EnqueuableJob::matches", "rexecutor-sqlx/src/unique.rs: Unique::query", "rexecutor/src/job/uniqueness_criteria.rs: UniquenessCriteria.key docs"]}
{"id": "C12", "title": "Same uniqueness decision on both backends", "statement": "For the same stored jobs and the same request, the in-memory and the Postgres backends agree on whether the request conflicts with an existing job.", "quantifier": "every store, request and clock reading", "why_tests_cant": "Agreement of two implementations over all inputs.", "anchors": ["rexecutor/src/backend/queryable.rs: EnqueuableJob::matches", "rexecutor-sqlx/src/unique.rs: Unique::query", "rexecutor-sqlx/src/lib.rs: insert_unique_job"]}
{"id": "C13", "title": "Status operations touch exactly one job", "statement": "Marking a job complete, retryable, discarded, cancelled, snoozed or rerunning it changes only the job with that id, and in that job only the documented fields; if no such job exists the result is job-not-found with that id and nothing changes.", "quantifier": "every store, id, error and time", "why_tests_cant": "Frame condition over all other jobs and all fields.", "anchors": ["rexecutor/src/backend/memory.rs: mark_job_complete, mark_job_retryable, mark_job_discarded, mark_job_cancelled, mark_job_snoozed, rerun_job"]}
{"id": "C14", "title": "Attempt count accounting", "statement": "In every history without explicit job updates, a job's attempt count equals the number of times it has been handed out minus the number of times it has been snoozed.", "quantifier": "every history of backend operations on any number of jobs", "why_tests_cant": "Induction over unbounded histories.", "anchors": ["rexecutor/src/backend/memory.rs: Job::mark_job_executing, Job::mark_job_snoozed"]}
{"id": "C15", "title": "Snoozing does not use up an attempt", "statement": "Handing a job out and then snoozing it restores its attempt count, its errors and its max attempts; it is scheduled if it had not failed before and retryable otherwise, and it can still be attempted as many times as before.", "quantifier": "every job, attempt count and snooze time", "why_tests_cant": "All attempt counts including the first and the last one.", "anchors": ["rexecutor/src/backend/memory.rs: Job::mark_job_snoozed", "rexecutor/src/executor.rs: ExecutionResult::Snooze docs"]}
{"id": "C16", "title": "Failure history is append-only", "statement": "In every history without explicit job updates, a job's error list only ever grows at the end, by exactly one entry per retry/discard/cancel report, carrying the reported type and message and the attempt number at that time.", "quantifier": "every history of backend operations", "why_tests_cant": "Induction over histories and every operation.", "anchors": ["rexecutor/src/backend/memory.rs: mark_job_retryable, mark_job_discarded, mark_job_cancelled, ExecutionError::into_job_error", "rexecutor/src/backend.rs: Backend trait docs"]}
{"id": "C17", "title": "Attempts never exceed max attempts", "statement": "A job is never executed to a non-snoozed result more than its maximum number of attempts (plus one per rerun); in particular a job with any max attempts value set through the API stops being retried.", "quantifier": "every max attempts value, every sequence of execution results, every interleaving with conflicts, updates and reruns", "why_tests_cant": "Includes values 0 and values lowered below the current attempt, over unbounded retry sequences.", "anchors": ["rexecutor/src/job.rs: Job::is_final_attempt", "rexecutor/src/job/runner.rs: handle_job_error", "rexecutor/src/executor.rs: Executor::MAX_ATTEMPTS"]}
{"id": "C18", "title": "A job that keeps failing is discarded exactly at its last attempt", "statement": "A job with max attempts m >= 1 that fails on every execution is retried m-1 times, is discarded on the m-th failure, and then carries exactly m errors numbered 1..m in order; it is never discarded earlier.", "quantifier": "every m in 1..65535, every sequence of failures of every kind, interleaved with snoozes", "why_tests_cant": "Unbounded m and arbitrary interleaving of snoozes.", "anchors": ["rexecutor/src/job/runner.rs: handle_job_error", "rexecutor/src/job.rs: Job::is_final_attempt", "rexecutor/src/backend/memory.rs: mark_job_discarded, mark_job_retryable"]}
{"id": "C19", "title": "Rerun makes a finished job runnable with one more attempt", "statement": "Rerunning a completed, discarded or cancelled job makes it waiting and due now, clears its completed/discarded/cancelled times, keeps its history, and allows exactly one more attempt than before.", "quantifier": "every finished job, every clock reading", "why_tests_cant": "All statuses and attempt counts including never-attempted cancelled jobs.", "anchors": ["rexecutor/src/backend/memory.rs: Job::mark_job_rerunable, rerun_job", "rexecutor-sqlx/src/lib.rs: rerun", "rexecutor/src/executor.rs: Executor::rerun_job docs"]}
{"id": "C20", "title": "A cancelled job does not run again", "statement": "After a successful cancel of a job, that job is not handed out to a worker again unless it is rerun or explicitly updated.", "quantifier": "every history, including cancels issued while the job is executing", "why_tests_cant": "The race between cancel and the end of a running execution.", "anchors": ["rexecutor/src/executor.rs: Executor::cancel_job", "rexecutor/src/backend/memory.rs: mark_job_cancelled, mark_job_retryable"]}
{"id": "C21", "title": "Finished jobs stay finished", "statement": "A complete, discarded or cancelled job is never handed out to a worker, and no hand-out changes it; only a status report, rerun, update, prune, or replacing unique enqueue concerning that job can change it.", "quantifier": "every history of operations that contain no such operation on the job", "why_tests_cant": "Induction over unbounded histories of operations on other jobs.", "anchors": ["rexecutor/src/backend/memory.rs: load_job_mark_as_executing_for_executor"]}
{"id": "C22", "title": "Query returns exactly the matching jobs", "statement": "A backend query returns every stored job that satisfies the query and no other, each once, in enqueue order, with its full current contents, and changes nothing.", "quantifier": "every store and every query expression of any depth", "why_tests_cant": "Unbounded nesting of and/or/not over stores of every size.", "anchors": ["rexecutor/src/backend/memory.rs: query, matching_jobs", "rexecutor/src/backend/queryable.rs: Query::matches"]}
{"id": "C23", "title": "Query combinators are boolean algebra", "statement": "Combining user queries with and/or/not has the logical meaning, whatever the shape of the operands: a job matches a.and(b) iff it matches both, a.or(b) iff it matches either, !a iff it does not match a.", "quantifier": "every pair of query expressions of any shape and every job", "why_tests_cant": "The flattening of nested and/or makes the law shape dependent; all shapes must be covered.", "anchors": ["rexecutor/src/job/query.rs: Where::and, Where::or, Not", "rexecutor/src/backend.rs: TryFrom<job::query::Query> for Query", "rexecutor/src/backend/queryable.rs: Query::matches"]}
{"id": "C24", "title": "Executor queries see only that executor's jobs", "statement": "Querying through an executor returns exactly that executor's jobs which satisfy the query, on every backend.", "quantifier": "every query expression, every store", "why_tests_cant": "Needs all query shapes, since the executor filter is spliced into the expression.", "anchors": ["rexecutor/src/backend.rs: Query::for_executor", "rexecutor/src/executor.rs: query_jobs_on_backend", "rexecutor-sqlx/src/query.rs: ToQuery for Query"]}
{"id": "C25", "title": "Age pruning removes exactly the old jobs", "statement": "Pruning by maximum age d removes every job of the given status and executor scope that was scheduled longer than d ago and no job that is younger.", "quantifier": "every store, status, scope, age and clock reading", "why_tests_cant": "All combinations of times around the boundary, past and future.", "anchors": ["rexecutor/src/backend/memory.rs: prune_jobs (MaxAge)", "rexecutor-sqlx/src/query.rs: ToQuery for PruneSpec", "rexecutor/src/pruner.rs: PruneBy docs"]}
{"id": "C26", "title": "Length pruning keeps the newest n", "statement": "After pruning by maximum length n at most n jobs of the given status and executor scope remain, none are removed if there were at most n, and the removed ones are the oldest.", "quantifier": "every store, n, status and scope", "why_tests_cant": "Existing tests use one store size for which a wrong count coincides with the right one.", "anchors": ["rexecutor/src/backend/memory.rs: prune_jobs (MaxLength)", "rexecutor-sqlx/src/query.rs: ToQuery for PruneSpec", "rexecutor/src/pruner.rs: PruneBy docs"]}
{"id": "C27", "title": "Pruning never touches jobs outside its specification", "statement": "Pruning never removes or changes a job whose status differs from the one specified or whose executor is outside the specified scope, keeps the order of remaining jobs, and never creates jobs.", "quantifier": "every store, every prune specification", "why_tests_cant": "Universal frame property.", "anchors": ["rexecutor/src/backend/memory.rs: prune_jobs", "rexecutor/src/backend/queryable.rs: PruneSpec::matches, Spec::matches"]}
{"id": "C28", "title": "Pruner scope combinators", "statement": "A pruner built with only/except and any number of further executors applies to exactly the named executors, respectively exactly the others; without scope it applies to all executors; status and limit are the ones given.", "quantifier": "every list of executor names and every job", "why_tests_cant": "Lists of every length.", "anchors": ["rexecutor/src/pruner.rs: Pruner::only, Pruner::except, Pruner::and, From<Pruner> for PruneSpec", "rexecutor/src/backend/queryable.rs: Spec::matches"]}
{"id": "C29", "title": "No lost wake-up", "statement": "If the backend is not paused, a worker stream of an executor never stays asleep with no wake-up message pending while a job of that executor is due earlier than the stream's own timer, unless the operation that made the job available is still about to send its wake-up.", "quantifier": "every number of streams and callers, every interleaving of enqueue, hand-out, retry, snooze, rerun, update with the stream's check-then-sleep", "why_tests_cant": "Lost wake-ups are interleaving bugs by definition.", "anchors": ["rexecutor/src/backend/memory.rs: ReadyJobStream::next, notify_subscribers, insert_new_job", "rexecutor-sqlx/src/stream.rs: ReadyJobStream::next"]}
{"id": "C30", "title": "Stream wake-up time", "statement": "A worker stream with no messages sleeps at most 30 seconds, and never past the due time of the earliest waiting job it saw; when it wakes at or after a job's due time with that job still waiting it hands out a job instead of sleeping again.", "quantifier": "every store and clock reading", "why_tests_cant": "All relations between now, due times, and the two tolerances (15ms and 100ms).", "anchors": ["rexecutor/src/backend/memory.rs: ReadyJobStream::next", "rexecutor-sqlx/src/stream.rs: ReadyJobStream::next"]}
{"id": "C31", "title": "Paused mode", "statement": "While the backend is paused no operation sends a wake-up to any worker stream except notify_all, which sends one to every subscribed stream; job contents are unaffected by pausing.", "quantifier": "every history of operations", "why_tests_cant": "Every operation in every order.", "anchors": ["rexecutor/src/backend/memory.rs: InMemoryBackend::paused, notify_all, notify_subscribers"]}
{"id": "C32", "title": "Every due job is eventually handed out", "statement": "If a job is due and waiting and no job that sorts before it arrives, it is handed out after at most as many hand-outs as there are due jobs ahead of it.", "quantifier": "every store, every sequence of hand-outs, including interleaved enqueues of later jobs", "why_tests_cant": "A liveness bound over stores of any size.", "anchors": ["rexecutor/src/backend/memory.rs: load_job_mark_as_executing_for_executor"]}
{"id": "C33", "title": "Backoff formula and bounds", "statement": "Before jitter, constant backoff returns the configured delay, linear factor*attempt, polynomial factor*attempt^power, exponential base^attempt seconds, each capped by the configured maximum; after adding the offset the result is never below the configured minimum.", "quantifier": "every attempt number in 0..65535 and every configuration for which no arithmetic overflow occurs", "why_tests_cant": "All attempts and configurations.", "anchors": ["rexecutor/src/backoff.rs: Constant, Linear, Polynomial, Exponential, BackoffStrategy::backoff"]}
{"id": "C34", "title": "Backoff never shrinks as attempts grow", "statement": "Without jitter, with non-negative parameters, a later attempt never gets a shorter delay than an earlier attempt.", "quantifier": "every pair of attempt numbers and every configuration", "why_tests_cant": "Overflow appears only for large attempts.", "anchors": ["rexecutor/src/backoff.rs: Linear, Polynomial, Exponential"]}
{"id": "C35", "title": "Jitter stays within its band", "statement": "Absolute jitter moves the delay by at most the configured amount and relative jitter by at most the configured fraction (rounded to a millisecond) in either direction, and never below the minimum.", "quantifier": "every delay, every jitter configuration, every random draw", "why_tests_cant": "Random draws and floating point rounding cannot be enumerated.", "anchors": ["rexecutor/src/backoff.rs: Jitter::apply_jitter, BackoffStrategy::backoff"]}
{"id": "C36", "title": "Default retry policy", "statement": "For every attempt the default policy yields a delay between 90% and 110% of min(4^attempt seconds, 7 days), never fails, and never goes negative.", "quantifier": "every attempt number 0..65535 and every random draw", "why_tests_cant": "65536 attempts times all random draws, with floating point.", "anchors": ["rexecutor/src/executor.rs: DEFAULT_BACKOFF", "rexecutor/src/backoff.rs: Exponential, Jitter::apply_jitter"]}
{"id": "C37", "title": "Computing a backoff never crashes", "statement": "Computing the delay for any attempt with any strategy constructible through the API returns a delay rather than panicking.", "quantifier": "every strategy, configuration and attempt", "why_tests_cant": "Only fails for large attempts or unusual parameters.", "anchors": ["rexecutor/src/backoff.rs: Exponential, Polynomial, Linear, Jitter::apply_jitter"]}
{"id": "C38", "title": "Each execution result is reported once and correctly", "statement": "After an execution ends, exactly one status report is sent for that job: done -> complete; cancel -> cancelled with the reason; snooze -> snoozed until now+delay; error, panic or timeout -> retryable at now+backoff when it is not the last attempt, else discarded, with the matching error type and message.", "quantifier": "every job, every execution outcome, every executor configuration", "why_tests_cant": "Product of outcomes, attempts and configurations.", "anchors": ["rexecutor/src/job/runner.rs: execute_job, execute_job_with_timeout, execute_job_without_timeout, handle_job_done, handle_job_cancelled, handle_job_snoozed, handle_job_error"]}
{"id": "C39", "title": "A bad job cannot stop the worker", "statement": "Whatever a single job does or contains - panicking, failing to decode, asking for extreme snoozes, extreme counters - the executor's worker keeps processing other jobs.", "quantifier": "every job contents and execution outcome", "why_tests_cant": "Needs every panic path of the worker loop, including those outside the isolated task.", "anchors": ["rexecutor/src/job/runner.rs: spawn, execute_job_with_timeout, execute_job_without_timeout, handle_job_snoozed, handle_job_error", "rexecutor/src/job.rs: TryFrom<backend::Job> for Job"]}
{"id": "C40", "title": "Every handed-out job is resolved", "statement": "Every job handed to a worker eventually gets a status report, so that no job stays executing forever while its worker is alive.", "quantifier": "every job contents (including undecodable data) and every outcome", "why_tests_cant": "Requires all paths of the worker.", "anchors": ["rexecutor/src/job/runner.rs: spawn (decode error branch)", "rexecutor/src/job.rs: TryFrom<backend::Job> for Job"]}
{"id": "C41", "title": "Concurrency limit", "statement": "A worker with concurrency limit n>=1 never has more than n jobs in execution, takes another whenever fewer than n are running and one is available, and without a limit is never held back.", "quantifier": "every schedule of job arrivals and completions, every n", "why_tests_cant": "All schedules.", "anchors": ["rexecutor/src/job/runner.rs: spawn (for_each_concurrent)", "rexecutor/src/executor.rs: Executor::MAX_CONCURRENCY"]}
{"id": "C42", "title": "Graceful shutdown", "statement": "After shutdown is requested a worker takes no new job, and every job already taken is run to its end and reported; the worker stops exactly when none are left.", "quantifier": "every point in every schedule at which shutdown may be requested", "why_tests_cant": "Shutdown can occur at any step of any schedule.", "anchors": ["rexecutor/src/job/runner.rs: spawn (take_until)", "rexecutor/src/lib.rs: Rexecutor::graceful_shutdown, drop_guard"]}
{"id": "C43", "title": "Cron ticks are enqueued once, in order, on time", "statement": "A cron runner enqueues each scheduled instant at most once and in increasing order, with the job's scheduled time equal to the instant, not earlier than 10ms before it, and enqueues every instant it does not oversleep.", "quantifier": "every schedule (set of instants), every sequence of wake-up delays and enqueue durations", "why_tests_cant": "Timing sequences are unbounded.", "anchors": ["rexecutor/src/cron_runner.rs: CronRunner::spawn, enqueue_job"]}
{"id": "C44", "title": "Cron jobs are not duplicated across nodes", "statement": "When several nodes run the same cron job against one backend, each scheduled instant results in one job.", "quantifier": "every number of nodes, store and clock readings", "why_tests_cant": "Needs several nodes and exact time coincidence.", "anchors": ["rexecutor/src/cron_runner.rs: enqueue_job", "rexecutor/src/backend/queryable.rs: EnqueuableJob::matches", "rexecutor-sqlx/src/unique.rs: Unique"]}
{"id": "C45", "title": "Pruner runs every rule", "statement": "At each scheduled instant every configured prune rule is applied to the backend, and a failing rule does not prevent the others; the number of rules run at once does not exceed the configured maximum concurrency.", "quantifier": "every rule list, every pattern of backend failures, every limit", "why_tests_cant": "All failure patterns.", "anchors": ["rexecutor/src/pruner/runner.rs: PrunerRunner::spawn, prune", "rexecutor/src/pruner.rs: PrunerConfig::with_max_concurrency"]}
{"id": "C46", "title": "Builder means what it says", "statement": "The enqueued request carries, for each field, the value of the last builder call for that field, or the documented default (max attempts and uniqueness from the executor, priority 0, no tags, due at build time); calls for different fields do not affect each other.", "quantifier": "every sequence of builder calls", "why_tests_cant": "Unbounded sequences of calls in every order.", "anchors": ["rexecutor/src/job/builder.rs: JobBuilder, _enqueue_to_backend"]}
{"id": "C47", "title": "Payload round trip", "statement": "The data and metadata a job executes with are those it was enqueued with.", "quantifier": "every data and metadata value of types whose own serialization round-trips", "why_tests_cant": "All values, including optional and unit ones.", "anchors": ["rexecutor/src/job/builder.rs: _enqueue_to_backend", "rexecutor/src/job.rs: TryFrom<backend::Job> for Job"]}
{"id": "C48", "title": "Typed and stored job conversions are inverse", "statement": "Converting a stored job to its typed form and back (update after query) loses nothing, and querying a job through the API never fails because of its counters.", "quantifier": "every stored job reachable through the API", "why_tests_cant": "Range of counters reachable by repeated rerun/snooze.", "anchors": ["rexecutor/src/job.rs: TryFrom<backend::Job> for Job", "rexecutor/src/backend.rs: TryFrom<job::Job> for Job", "rexecutor/src/executor.rs: query_jobs_on_backend, update_job_on_backend"]}
{"id": "C49", "title": "Global backend is set once", "statement": "The first successful set of the global backend wins: later sets fail and leave it in place; operations before any set fail without effect.", "quantifier": "every sequence of set and use operations", "why_tests_cant": "All histories.", "anchors": ["rexecutor/src/global_backend.rs: GlobalBackend::set, as_ref", "rexecutor/src/job/builder.rs: _enqueue"]}
{"id": "C50", "title": "Enqueue assertions count exactly", "statement": "assert_enqueued with an expected number of jobs succeeds iff exactly that number of enqueued jobs satisfy the given conditions.", "quantifier": "every store, condition list and expected number", "why_tests_cant": "Every count versus every expected count.", "anchors": ["rexecutor/src/testing.rs: assert_enqueued"]}
{"id": "C51", "title": "Postgres query means the same as in memory", "statement": "For every query expression, the rows selected by the SQL text generated for it are exactly the jobs satisfying the query.", "quantifier": "every query expression of any depth, every job", "why_tests_cant": "Operator precedence bugs appear only for particular nestings.", "anchors": ["rexecutor-sqlx/src/query.rs: handle_query, ToQuery for Query", "rexecutor-sqlx/src/lib.rs: run_query"]}
{"id": "C52", "title": "Postgres uniqueness by key", "statement": "On Postgres an enqueue with a uniqueness key conflicts with an existing job enqueued with the same criteria and the same key.", "quantifier": "every key, criteria and table", "why_tests_cant": "Depends on what is stored versus what is compared for every key.", "anchors": ["rexecutor-sqlx/src/lib.rs: insert_unique_job", "rexecutor-sqlx/src/unique.rs: Unique::unique_identifier, Unique::query"]}
{"id": "C53", "title": "Postgres hand-out is exclusive and ordered by priority", "statement": "Concurrent workers on Postgres never receive the same release of a job; each receives the best due, unlocked job, ordered by priority and then scheduled time.", "quantifier": "every table, number of concurrent transactions and interleaving of lock, commit and abort", "why_tests_cant": "Transaction interleavings.", "anchors": ["rexecutor-sqlx/src/lib.rs: load_job_mark_as_executing_for_executor"]}
{"id": "C54", "title": "Postgres enum encodings round-trip", "statement": "Every job status and every error type written to Postgres is read back unchanged, in both directions.", "quantifier": "every status and every error type including custom ones", "why_tests_cant": "Custom error types range over all strings.", "anchors": ["rexecutor-sqlx/src/types.rs: From<JobStatus>, JobErrorType, Display"]}
{"id": "C55", "title": "Both backends implement the same status operations", "statement": "Starting from the same job, complete, retryable, discarded, cancelled, snoozed and rerun have the same effect on the in-memory and the Postgres backend, including the result for a missing job.", "quantifier": "every job, id, error and clock reading", "why_tests_cant": "Agreement over all inputs.", "anchors": ["rexecutor-sqlx/src/lib.rs: _mark_job_complete, _mark_job_retryable, _mark_job_discarded, _mark_job_cancelled, _mark_job_snoozed, rerun", "rexecutor-sqlx/src/backend.rs: handle_update", "rexecutor/src/backend/memory.rs: Backend for InMemoryBackend"]}
{"id": "C56", "title": "Update has the same effect on both backends", "statement": "Explicitly updating a job sets the editable fields (data, metadata, max attempts, scheduled time, priority, tags) and cannot change its id, status, attempt count, history, or any other job.", "quantifier": "every store and every updated job value", "why_tests_cant": "All field combinations.", "anchors": ["rexecutor/src/backend/memory.rs: update_job", "rexecutor-sqlx/src/lib.rs: update", "rexecutor/src/executor.rs: update_job docs"]}
{"id": "C57", "title": "No operation can break the backend for others", "statement": "No sequence of API calls leaves the in-memory backend in a state in which every later operation fails.", "quantifier": "every history of operations with every argument", "why_tests_cant": "Depends on extreme arguments inside a critical section.", "anchors": ["rexecutor/src/backend/memory.rs: prune_jobs (now - delta under the write lock)"]}
{"id": "C58", "title": "Wake-ups go to the right streams", "statement": "An operation that makes a job available sends exactly one wake-up to each stream subscribed for that job's executor and none to streams of other executors.", "quantifier": "every set of subscriptions and every operation", "why_tests_cant": "All subscription sets.", "anchors": ["rexecutor/src/backend/memory.rs: notify_subscribers"]}
{"id": "C59", "title": "Postgres pruning", "statement": "On Postgres, pruning by age removes exactly the jobs in scope whose relevant time lies, to the microsecond the database keeps, more than the age before now (finished statuses) or after now (waiting statuses), and pruning by length keeps exactly n jobs in scope, none older than a removed one (respectively none later).", "quantifier": "every table, specification and clock reading", "why_tests_cant": "All orders and ties.", "anchors": ["rexecutor-sqlx/src/query.rs: ToQuery for PruneSpec", "rexecutor-sqlx/src/lib.rs: delete_from_spec"]}
{"id": "C60", "title": "Job life cycle", "statement": "In every history driven by workers (enqueues that allow at least one attempt, hand-outs, one report per hand-out, cancelling of waiting jobs, rerunning of finished jobs, pruning of jobs that are not executing), a job is executing exactly while a worker holds it, waiting jobs have fewer attempts used than allowed, a discarded job used all of them, and a job's finish timestamps are set iff it has the corresponding status.", "quantifier": "every history of any length with any number of jobs and workers", "why_tests_cant": "Global invariant over unbounded histories.", "anchors": ["rexecutor/src/backend/memory.rs", "rexecutor/src/job/runner.rs"]}
{"id": "C61", "title": "Uniqueness criteria expressions mean what they say", "statement": "A uniqueness criteria or replacement policy written as a chain of method calls has, for each part (key, executor, time window, statuses, conflict policy; replaced fields and statuses), the value given by the last call that mentions it, or the documented default; the key is the signed 64-bit reading of the hash.", "quantifier": "every chain of calls of any length", "why_tests_cant": "Unbounded call chains; a setter that also touches another part only shows in unusual chains.", "anchors": ["rexecutor/src/job/uniqueness_criteria.rs"]}
{"id": "C62", "title": "Nothing but an update or a replacing enqueue changes what a job is for", "statement": "From enqueue to removal, a job's data, metadata, executor, priority, tags and insertion time change only by an explicit update of that job or by a replacing unique enqueue.", "quantifier": "every history of operations of any length, every job", "why_tests_cant": "Needs every operation in every order.", "anchors": ["rexecutor/src/backend/memory.rs"]}
{"id": "C63", "title": "Postgres ids are unique and never reused", "statement": "At every point of every history the ids in the Postgres table are distinct; an enqueue returns either the id of a job already in the table or an id greater than any the table ever had.", "quantifier": "every history of operations of any length", "why_tests_cant": "Unbounded histories with pruning in between.", "anchors": ["rexecutor-sqlx/src/lib.rs: insert_job, insert_unique_job", "rexecutor-sqlx/migrations: id SERIAL"]}
{"id": "C64", "title": "Postgres keeps times to the microsecond", "statement": "A time stored in Postgres is the given time cut towards 2000-01-01 to a whole microsecond; times on whole microseconds from 4713 BC on are kept exactly, earlier ones are refused.", "quantifier": "every time", "why_tests_cant": "Depends on the sign of the distance to the database epoch.", "anchors": ["rexecutor-sqlx/src/lib.rs: every bound time"]}
{"id": "C65", "title": "A failed Postgres operation changes nothing", "statement": "A Postgres operation that returns an error leaves the table as it was.", "quantifier": "every history and every operation", "why_tests_cant": "Needs every operation in every reachable table.", "anchors": ["rexecutor-sqlx/src/lib.rs", "rexecutor-sqlx/src/stream.rs: poll_next"]}
{"id": "C66", "title": "Postgres tables stay readable", "statement": "At every point of every history every row of the Postgres table can be read back as a job.", "quantifier": "every history of operations of any length", "why_tests_cant": "Depends on counters reached only after unusual sequences.", "anchors": ["rexecutor-sqlx/src/lib.rs", "rexecutor-sqlx/src/types.rs: TryFrom<Job>"]}
{"id": "C67", "title": "Overlapping Postgres calls can always finish", "statement": "Whatever calls to the Postgres backend are in progress and whichever locks they hold, all of them can return without a further call being made and without any being ended from outside, unless several prunes each hold a row and have more to lock, of which Postgres may have to end some.", "quantifier": "every table, number of calls, interleaving and failure", "why_tests_cant": "Deadlocks need particular interleavings of lock requests.", "anchors": ["rexecutor-sqlx/src/lib.rs: load_job_mark_as_executing_for_executor, insert_unique_job, delete_from_spec, _mark_job_complete"]}
{"id": "C68", "title": "A Postgres call that is not interfered with behaves as if alone", "statement": "A call made while nobody else holds a row or advisory lock, and executed by itself, leaves the table and returns the result it would with nobody else connected.", "quantifier": "every reachable state of overlapping use, every operation", "why_tests_cant": "Relates every operation to every state other callers can leave behind.", "anchors": ["rexecutor-sqlx/src/lib.rs"]}
{"id": "C69", "title": "A replacement on Postgres respects its status list while others work", "statement": "A unique enqueue that replaces fields of a row on Postgres changes only the selected fields, and only of a row that conflicts with it and has a status in its list at that moment, also while other calls are in progress.", "quantifier": "every table, number of calls, interleaving and failure", "why_tests_cant": "The row may change between the query and the update.", "anchors": ["rexecutor-sqlx/src/lib.rs: insert_unique_job"]}
{"id": "C70", "title": "A Postgres prune deletes only what fits while others work", "statement": "A row deleted by a prune on Postgres fits the prune's specification when it is deleted, also while other calls are in progress.", "quantifier": "every table, number of calls, interleaving and failure", "why_tests_cant": "The row may change between the inner query and the deletion.", "anchors": ["rexecutor-sqlx/src/lib.rs: delete_from_spec", "rexecutor-sqlx/src/query.rs: ToQuery for PruneSpec"]}
{"id": "C71", "title": "Date arithmetic fails exactly outside the calendar", "statement": "Adding a duration to an instant, or subtracting one, gives the exact sum or difference when that lies in the years -262143 to 262142 of the proleptic Gregorian calendar, and fails (panics in the callers) otherwise.", "quantifier": "all instants and durations", "why_tests_cant": "The limits lie hundreds of thousands of years away, and tests use times near today.", "anchors": ["rexecutor/src/job/builder.rs: schedule_in", "rexecutor-sqlx/src/query.rs: ToQuery for PruneSpec", "rexecutor/src/backend/memory.rs: prune_jobs"]}
{"id": "C72", "title": "No wake-up is lost on Postgres", "statement": "A sleeping Postgres stream whose executor has a waiting job has its timer set to when the job is due (or at most 15 ms after its last look at the clock), or has a message, or an announcement is on its way to its process; announcements are made for exactly the inserts and updates that leave a job waiting, and passed on to exactly the streams of that executor.", "quantifier": "every table, number of processes, streams and calls, interleaving and failure", "why_tests_cant": "Lost wake-ups need an insert between a query and the following sleep; the listener fails only for unusual dates.", "anchors": ["rexecutor-sqlx/src/stream.rs: next", "rexecutor-sqlx/src/lib.rs: from_pool", "rexecutor-sqlx/migrations: rexecutor_new_job_notify"]}
{"id": "C73", "title": "Postgres streams sleep for a bounded time", "statement": "A Postgres stream never sleeps for more than 30 seconds, nor beyond the time of the earliest waiting job it saw (or 15 ms if that was due), and what it saw is the earliest waiting job of its executor; it looks again exactly when its timer runs out or a message arrives.", "quantifier": "every table, number of processes, streams and calls, interleaving and failure", "why_tests_cant": "Depends on the difference of two clocks with any sign and size.", "anchors": ["rexecutor-sqlx/src/stream.rs: next", "rexecutor-sqlx/src/lib.rs: next_available_job_scheduled_at_for_executor"]}
{"id": "C74", "title": "Postgres workers are given a job once", "statement": "However many processes and streams there are, a job on Postgres is given to a worker at most once plus once for every retry, snooze or rerun of it, and as the hand-out left it.", "quantifier": "every table, number of processes, streams and calls, interleaving and failure", "why_tests_cant": "Double delivery needs several processes at particular moments.", "anchors": ["rexecutor-sqlx/src/stream.rs: next", "rexecutor-sqlx/src/lib.rs: load_job_mark_as_executing_for_executor"]}
{"id": "C75", "title": "Postgres streams hand out due jobs", "statement": "A Postgres stream that looks while a job of its executor is due within 15 ms and nobody holds a row gives its worker a due job that no other due job is preferred to; errors are reported as bad state or, for unreadable rows, as such; after each item it looks again.", "quantifier": "every reachable state, every clock value in the range Postgres keeps", "why_tests_cant": "Relates timing, query and conversion in every reachable state.", "anchors": ["rexecutor-sqlx/src/stream.rs: next", "rexecutor-sqlx/src/backend.rs: subscribe_ready_jobs"]}
{"id": "C76", "title": "Postgres refuses what it cannot store", "statement": "An operation on Postgres that binds a text with a zero byte or a time before 4714 BC is an error for a bad state and changes nothing; a prune or a unique enqueue whose cut-offs are no dates panics and changes nothing; in a table whose rows can be read nothing else fails but: a report or edit of a missing job, an exhausted number sequence, an overflowing attempt count, an empty conjunction or disjunction in a query, an empty replacement.", "quantifier": "every table, operation, text, time and query", "why_tests_cant": "Needs unusual values in every field of every operation, and every shape of query.", "anchors": ["rexecutor-sqlx/src/lib.rs", "rexecutor-sqlx/src/query.rs: handle_query", "rexecutor-sqlx/src/unique.rs"]}
{"id": "C77", "title": "Identifiers of uniqueness criteria", "statement": "The identifier stored with a unique job on Postgres is the FxHash of its key, its executor if criteria name it, and its statuses, and is determined by them; criteria that differ have different identifiers.", "quantifier": "all keys, executors and lists of statuses", "why_tests_cant": "The space of hashes is far too large to search for collisions by testing.", "anchors": ["rexecutor-sqlx/src/unique.rs: unique_identifier"]}
{"id": "C78", "title": "A Rexecutor starts what it is asked to start", "statement": "with_executor starts one worker for the executor, a cron executor one schedule loop (in UTC unless a zone is given) and one worker, with_job_pruner one pruner loop; each works on the backend the Rexecutor was made with, starts afresh, and leaves the other tasks alone.", "quantifier": "every sequence of calls on any number of Rexecutors, interleaved with any steps of the tasks", "why_tests_cant": "Covers every program using the API and every state its tasks can be in.", "anchors": ["rexecutor/src/lib.rs: with_executor", "rexecutor/src/lib.rs: with_cron_executor_for_timezone", "rexecutor/src/lib.rs: with_job_pruner"]}
{"id": "C79", "title": "Shutting a Rexecutor down stops its tasks and no others", "statement": "graceful_shutdown, or dropping the guard, tells exactly the tasks started through that Rexecutor to stop and changes nothing else; from then on its workers take no job, each of its tasks can come to an end whatever it is doing, and no task ends for any other reason but a panic.", "quantifier": "every history of every process", "why_tests_cant": "Shutdown can come in every state of every task.", "anchors": ["rexecutor/src/lib.rs: graceful_shutdown", "rexecutor/src/lib.rs: drop_guard", "rexecutor/src/job/runner.rs: spawn"]}
{"id": "C80", "title": "MAX_CONCURRENCY holds in the whole process", "statement": "In one process at most MAX_CONCURRENCY jobs of an executor are in progress at the same time.", "quantifier": "every history of every process", "why_tests_cant": "Depends on how often and how the executor was registered.", "anchors": ["rexecutor/src/executor.rs: MAX_CONCURRENCY", "rexecutor/src/lib.rs: with_cron_executor_for_timezone"]}
{"id": "C81", "title": "Every task can be stopped", "statement": "A program that has not dropped a Rexecutor can shut its tasks down.", "quantifier": "every history of every process", "why_tests_cant": "A statement about all continuations of a history.", "anchors": ["rexecutor/src/lib.rs: set_global_backend", "rexecutor/src/lib.rs: graceful_shutdown"]}
{"id": "C82", "title": "The global backend is the first one set", "statement": "The first set_global_backend of a process succeeds and makes that Rexecutor's backend the global one for good; every later one is refused, and none can be made twice on one Rexecutor.", "quantifier": "every history of every process", "why_tests_cant": "Covers all orders of calls on all Rexecutors.", "anchors": ["rexecutor/src/lib.rs: set_global_backend", "rexecutor/src/global_backend.rs: set"]}
{"id": "C83", "title": "No tick after a shutdown", "statement": "After a Rexecutor was shut down its cron schedules enqueue no job and its pruner does not run again.", "quantifier": "every history of every process", "why_tests_cant": "Needs the timer and the token to be ready at the same poll.", "anchors": ["rexecutor/src/cron_runner.rs: spawn", "rexecutor/src/pruner/runner.rs: spawn"]}
{"id": "C84", "title": "Life cycle on Postgres under workers", "statement": "When workers drive the Postgres backend, every row stays readable, no two workers hold one job, a job is executing exactly when a worker holds it or the report on it was refused, attempts count results, no job is executed more often than allowed, and a job that keeps failing is discarded exactly at its last attempt; a report is stored unless it carries a text with a zero byte or a date before 4714 BC.", "quantifier": "every orderly history of any number of workers, requests, reruns, cancellations, prunes and queries", "why_tests_cant": "Unbounded histories and all interleavings of several workers' reports.", "anchors": ["rexecutor-sqlx/src/lib.rs: load_job", "rexecutor-sqlx/src/lib.rs: _mark_job_retryable", "rexecutor/src/job/runner.rs: execute_job"]}
{"id": "C85", "title": "The in-memory backend passes the conformance suite", "statement": "Every execution of every test of test_suite! on a fresh in-memory backend passes, in both build profiles, provided the clock does not go back and no step of a test takes more than five seconds.", "quantifier": "every test, every sequence of clock readings, every time a stream sleeps", "why_tests_cant": "A test run is one sequence of clock readings; the assertions compare times.", "anchors": ["rexecutor/src/backend/testing.rs: test_suite", "rexecutor/src/backend/memory.rs: InMemoryBackend"]}
{"id": "C86", "title": "The Postgres backend passes the conformance suite", "statement": "Every execution of every test of test_suite! on a fresh Postgres backend passes, whatever a step of a test takes up to fifty milliseconds.", "quantifier": "every test, every sequence of clock readings, every time a stream sleeps, every hash function", "why_tests_cant": "A test run is one sequence of clock readings; the assertions compare times.", "anchors": ["rexecutor/src/backend/testing.rs: test_suite", "rexecutor-sqlx/src/backend.rs: RexecutorPgBackend"]}
{"id": "C87", "title": "A Postgres call's answer tells what it did", "statement": "However calls overlap and fail, each answers with its own kind of result and makes at most one change; a call that reports success made the change it was asked for, and a call that reports a failure changed nothing.", "quantifier": "every table, number of calls, interleaving and failure", "why_tests_cant": "Needs a connection to break, or another caller to act, between any two statements of a call.", "anchors": ["rexecutor-sqlx/src/lib.rs: load_job_mark_as_executing_for_executor, insert_unique_job, delete_from_spec, _mark_job_complete", "rexecutor-sqlx/src/lib.rs: map_err"]}
{"id": "C88", "title": "The backoff tests cannot be flaky", "statement": "Every assertion of the sixteen tests of backoff.rs holds whatever the random generator draws, including the two that compare f64 values, and none of the tests panics.", "quantifier": "every draw, every attempt the tests try, both build profiles", "why_tests_cant": "A test run sees one draw per attempt.", "anchors": ["rexecutor/src/backoff.rs: BackoffStrategy::backoff", "rexecutor/src/backoff.rs: Jitter::apply_jitter"]}
{"id": "C89", "title": "The other unit tests cannot be flaky", "statement": "Every execution of the tests of queryable.rs passes, as do the test of a poisoned lock in memory.rs, the test of assert_enqueued! and the tests of load_job_mark_as_executing_for_executor and enqueue on Postgres, whatever the clock reads as long as it does not go back and no step takes more than a second.", "quantifier": "every test, every sequence of clock readings", "why_tests_cant": "A test run is one sequence of clock readings; the assertions compare times.", "anchors": ["rexecutor/src/backend/queryable.rs: test", "rexecutor/src/backend/memory.rs: test", "rexecutor/src/testing.rs: test", "rexecutor-sqlx/src/backend.rs: test"]}
{"id": "C90", "title": "Work comes to an end", "statement": "In a history driven by workers over the in-memory store in which nothing is rerun, executions end with a result (anything but a snooze) no more often than the jobs had attempts left plus the attempts that later requests allow; once nobody holds a job and nothing is handed out, every job whose time has come is finished; and from every reachable state in which the jobs can be decoded the workers can finish every job on their own.", "quantifier": "every history, interleaving of workers, clock and outcome", "why_tests_cant": "Tests run a few jobs; the bound must hold for every history.", "anchors": ["rexecutor/src/job/runner.rs: spawn", "rexecutor/src/backend/memory.rs: load_job_mark_as_executing_for_executor", "rexecutor/src/backend/memory.rs: mark_job_retryable"]}
{"id": "C91", "title": "Work comes to an end on Postgres", "statement": "In a history driven by workers over the Postgres table in which nothing is rerun, results and refused reports together are no more than the attempts the jobs had left plus those later requests allow; once nobody holds a job and nothing is handed out, every job whose time has come is finished or its report was refused; and from every reachable state in which the jobs can be decoded the workers can finish every job whose report was not refused.", "quantifier": "every history, interleaving of workers, clock and outcome", "why_tests_cant": "Tests run a few jobs; the bound must hold for every history.", "anchors": ["rexecutor/src/job/runner.rs: spawn", "rexecutor-sqlx/src/lib.rs: load_job_mark_as_executing_for_executor", "rexecutor-sqlx/src/lib.rs: _mark_job_retryable"]}
{"id": "C92", "title": "A program is its parts, put together", "statement": "In every history of a program with any number of in-memory backends and Rexecutors, whose workers' streams and tasks' calls act on those backends, the process goes through a history of the Rexecutor object with exactly the program's calls, and each backend through a history of the concurrent store; each event does to them exactly what it stands for.", "quantifier": "every program, history, interleaving, clock and number of backends", "why_tests_cant": "Tests run one small program under one schedule.", "anchors": ["rexecutor/src/lib.rs: Rexecutor", "rexecutor/src/job/runner.rs: spawn", "rexecutor/src/backend/memory.rs: subscribe_ready_jobs"]}
{"id": "C93", "title": "Jobs go from the stores to the workers", "statement": "In every history of a program, each worker has a stream of its own, for its executor, on the backend of its Rexecutor; it has taken exactly the jobs that stream was given, in order, all of its executor; each hand-out of a store is taken by exactly one worker; a stream is polled only while its worker is below its limit and has not been told to stop.", "quantifier": "every program, history and interleaving", "why_tests_cant": "Tests start one or two executors; the correspondence must hold for every number of them under every schedule.", "anchors": ["rexecutor/src/job/runner.rs: spawn", "rexecutor/src/backend/memory.rs: ReadyJobStream", "rexecutor/src/backend/memory.rs: load_job_mark_as_executing_for_executor"]}
{"id": "C94", "title": "Calls go from the tasks to the stores", "statement": "In every history of a program, the backend calls of each task are exactly its reports, its cron requests or its prunes, in order and made once; the calls on a store are those and the program's own; a worker gets the result of its own report, as soon as there is one; a loop goes on only after its calls are done, and dies if one panics.", "quantifier": "every program, history and interleaving", "why_tests_cant": "Tests do not watch the calls of several tasks on one store.", "anchors": ["rexecutor/src/job/runner.rs: execute_job", "rexecutor/src/cron_runner.rs: enqueue_job", "rexecutor/src/pruner/runner.rs: prune"]}
{"id": "C95", "title": "No job is run by two workers at once", "statement": "In every history of a program on in-memory backends, no job of a backend is at two workers at once, or twice at one: from when a worker takes it until that worker has reported on it, no worker takes it again.", "quantifier": "every program, history, interleaving and number of workers", "why_tests_cant": "Tests run one worker per executor and do not interleave its steps with other calls.", "anchors": ["rexecutor/src/job/runner.rs: spawn", "rexecutor/src/backend/memory.rs: load_job_mark_as_executing_for_executor", "rexecutor/src/backend/memory.rs: enqueue"]}
{"id": "C96", "title": "A task does not leave its calls behind", "statement": "In every history of a program on in-memory backends, as long as a backend call of a task has not returned, the task is waiting for it, unless it panicked: the worker's job is still being reported on, the loop is still at that firing; when a task has ended, every call it ever made has returned.", "quantifier": "every program, history, interleaving and task", "why_tests_cant": "Tests do not stop a program between a call and its return.", "anchors": ["rexecutor/src/job/runner.rs: spawn", "rexecutor/src/cron_runner.rs: enqueue_job", "rexecutor/src/pruner/runner.rs: prune", "rexecutor/src/lib.rs: graceful_shutdown"]}
{"id": "C97", "title": "A shutdown can always be completed", "statement": "From every state a program on in-memory backends can reach, each task whose Rexecutor was told to shut down can end by its own steps alone, whatever its job, stream or call is at and whatever the other tasks do not do; so can all of them, without touching the tasks that were not told to stop.", "quantifier": "every program, history, state and number of tasks", "why_tests_cant": "A test sees one shutdown end; a deadlock needs one particular schedule.", "anchors": ["rexecutor/src/lib.rs: graceful_shutdown", "rexecutor/src/job/runner.rs: spawn", "rexecutor/src/cron_runner.rs: spawn", "rexecutor/src/pruner/runner.rs: spawn"]}
{"id": "C98", "title": "What is due can be done", "statement": "From every state a program on in-memory backends can reach, a worker that has room for a job can by its own steps alone run and complete every job of its executor that is due, wherever its stream and the other tasks are; and all the workers of the program can, until no job that was due waits for an executor that has such a worker. No other job is touched or lost.", "quantifier": "every program, history, state, time and number of jobs and workers whose jobs can be decoded", "why_tests_cant": "A test sees its own jobs done; a stream that stays asleep or a job that is passed over needs a particular history.", "anchors": ["rexecutor/src/job/runner.rs: spawn", "rexecutor/src/backend/memory.rs: ReadyJobStream", "rexecutor/src/backend/memory.rs: load_job_mark_as_executing_for_executor", "rexecutor/src/backend/memory.rs: mark_job_complete"]}
{"id": "C99", "title": "A fleet is its parts, put together", "statement": "In every history of any number of processes that share a Postgres database, each with its own backends, Rexecutors and tasks, the database, its listeners and the streams go through a history of the Postgres backend, and each process through a history of the Rexecutor object with exactly its program's calls; every task works on a backend of its own process; each event does to them exactly what it stands for.", "quantifier": "every number of processes, program, history, interleaving and clock", "why_tests_cant": "Tests run one process with one backend.", "anchors": ["rexecutor/src/lib.rs: Rexecutor", "rexecutor/src/job/runner.rs: spawn", "rexecutor-sqlx/src/lib.rs: RexecutorPgBackend", "rexecutor-sqlx/src/backend.rs: subscribe_ready_jobs"]}
{"id": "C100", "title": "Jobs go from the database to the workers of all processes", "statement": "In every history of processes sharing a Postgres database, each worker has a stream of its own, for its executor, on the backend of its Rexecutor; it has taken exactly the jobs that stream gave, in order, all of its executor; each job the streams gave is taken by exactly one worker of one process, each time; a stream is polled only while its worker is below its limit and has not been told to stop.", "quantifier": "every number of processes, program, history and interleaving", "why_tests_cant": "Tests have one stream per database; the correspondence must hold for every number of processes under every schedule.", "anchors": ["rexecutor/src/job/runner.rs: spawn", "rexecutor-sqlx/src/stream.rs: ReadyJobStream", "rexecutor-sqlx/src/lib.rs: load_job_mark_as_executing_for_executor"]}
{"id": "C101", "title": "Calls go from the tasks of all processes to the database", "statement": "In every history of processes sharing a Postgres database, the backend calls of each task are exactly its reports, its cron requests or its prunes, in order and made once; the calls on the database are those, the programs' own and the loads of streams; a worker gets the result of its own report, as soon as there is one; a loop goes on only after its calls are done, and dies if one panics.", "quantifier": "every number of processes, program, history and interleaving", "why_tests_cant": "Tests do not watch the calls of several processes on one database.", "anchors": ["rexecutor/src/job/runner.rs: execute_job", "rexecutor/src/cron_runner.rs: enqueue_job", "rexecutor/src/pruner/runner.rs: prune"]}
{"id": "C102", "title": "No job is at two workers of a fleet at once, unless a program releases it", "statement": "In every history of processes sharing a Postgres database, the workers of all processes together hold a job (have taken it and not reported on it) at most once, plus once for each retry, snooze or rerun of it that a program called itself; so if the programs call none, no job is at two workers at once, whatever calls fail, answers are lost, announcements go missing or processes stop.", "quantifier": "every number of processes and workers, program, history, interleaving and failure", "why_tests_cant": "Tests have one worker per database and do not interleave the steps of two processes.", "anchors": ["rexecutor/src/job/runner.rs: spawn", "rexecutor-sqlx/src/lib.rs: load_job_mark_as_executing_for_executor", "rexecutor-sqlx/src/stream.rs: ReadyJobStream"]}
{"id": "C103", "title": "A task of a fleet does not leave its calls behind", "statement": "In every history of processes sharing a Postgres database, as long as a backend call of a task has not returned, the task is waiting for it, unless it panicked: the worker's job is still being reported on, the loop is still at that firing; when a task has ended, every call it ever made has returned.", "quantifier": "every number of processes, program, history, interleaving, failure and task", "why_tests_cant": "Tests do not stop a program between a call and its return.", "anchors": ["rexecutor/src/job/runner.rs: spawn", "rexecutor/src/cron_runner.rs: enqueue_job", "rexecutor/src/pruner/runner.rs: prune", "rexecutor/src/lib.rs: graceful_shutdown"]}
{"id": "C104", "title": "A shutdown of a process on Postgres can always be completed", "statement": "From every state processes sharing a Postgres database can reach, each task whose Rexecutor was told to shut down can end by its own steps and those of the calls on the database, whatever its job, stream or call is at, whatever rows other calls keep locked and whatever the other tasks and processes do not do; so can all of them, without touching the tasks that were not told to stop. From outside nothing is needed but that Postgres ends prunes that deadlock.", "quantifier": "every number of processes, program, history, state, failure and number of tasks", "why_tests_cant": "A test sees one shutdown end; a deadlock needs one particular schedule of several processes.", "anchors": ["rexecutor/src/lib.rs: graceful_shutdown", "rexecutor/src/job/runner.rs: spawn", "rexecutor/src/cron_runner.rs: spawn", "rexecutor/src/pruner/runner.rs: spawn", "rexecutor-sqlx/src/backend.rs: prune_jobs"]}
{"id": "C105", "title": "The workers of a fleet can always run and complete the jobs that are due", "statement": "From every state processes sharing a Postgres database can reach, a worker at work can, by its own steps and those of the calls, come to have no job in hand and room for one (or it crashes on a job it was given). From there, whatever its stream has seen, slept through or not been told, it can, by its own steps and its own calls alone, from any time on, run and complete every due job of its executor, leaving all other jobs alone but for those of its executor handed out at most 100 ms early, and touching no other task, stream or call; so can all workers of all processes, after which no due job waits for an executor that has such a worker.", "quantifier": "every number of processes, program, history, state of the streams and table, and time", "why_tests_cant": "A test sees one job run in one process; a job that no worker would find needs a particular history of announcements, loads and sleeps.", "anchors": ["rexecutor/src/job/runner.rs: spawn", "rexecutor-sqlx/src/stream.rs: ReadyJobStream", "rexecutor-sqlx/src/lib.rs: load_job_mark_as_executing_for_executor", "rexecutor-sqlx/src/backend.rs: subscribe_ready_jobs"]}
{"id": "C106", "title": "A shutdown completes when every part gets its turns", "statement": "In every endless history of a program on in-memory backends in which every call that has begun goes on, a task that can take steps from some time on takes one, and a loop that can leave again and again leaves: each task whose Rexecutor was shut down comes to its end, and there is a time from which on all of them have ended. A worker told to stop takes at most three more steps for each job it has, and two. That loops must leave if they again and again can is needed: a pruner without rules may otherwise go on for ever after the shutdown.", "quantifier": "every program, endless history and interleaving that is fair in this sense, and number of tasks", "why_tests_cant": "No test runs for ever; that something happens at last is not seen in any finite run.", "anchors": ["rexecutor/src/lib.rs: graceful_shutdown", "rexecutor/src/job/runner.rs: spawn", "rexecutor/src/cron_runner.rs: spawn", "rexecutor/src/pruner/runner.rs: spawn"]}
{"id": "C107", "title": "A job that was taken is reported when every part gets its turns", "statement": "In every endless history of a program on in-memory backends in which every call that has begun goes on, every call returns; and if each job in a worker's hands gets its turns, then a job a worker has taken is reported on and the store has answered the report, unless the worker dies or the job cannot be decoded.", "quantifier": "every program, endless history and interleaving that is fair in this sense, worker and job", "why_tests_cant": "No test runs for ever; that something happens at last is not seen in any finite run.", "anchors": ["rexecutor/src/job/runner.rs: spawn", "rexecutor/src/job/runner.rs: execute_job", "rexecutor/src/backend/memory.rs: InMemoryBackend"]}
{"id": "C108", "title": "A shutdown on Postgres completes when every part gets its turns", "statement": "In every endless history of processes sharing a Postgres database in which no call stands still for ever, a task that can take steps from some time on takes one, and a loop that can leave again and again leaves: each task whose Rexecutor was shut down by its process comes to its end, whatever the other processes do, and there is a time from which on all of them have ended. A worker told to stop takes at most three more steps for each job it has, and two. That loops must leave if they again and again can is needed here too.", "quantifier": "every number of processes, program, endless history and interleaving that is fair in this sense, and number of tasks", "why_tests_cant": "No test runs for ever; that something happens at last is not seen in any finite run.", "anchors": ["rexecutor/src/lib.rs: graceful_shutdown", "rexecutor/src/job/runner.rs: spawn", "rexecutor/src/cron_runner.rs: spawn", "rexecutor/src/pruner/runner.rs: spawn", "rexecutor-sqlx/src/backend.rs: prune_jobs"]}
{"id": "C109", "title": "On Postgres too, a job that was taken is reported when every part gets its turns", "statement": "In every endless history of processes sharing a Postgres database in which no call stands still for ever, every call returns, and stays returned; and if each job in a worker's hands gets its turns, then a job a worker has taken is reported on and the database has answered the report (perhaps with an error), unless the worker dies or the job cannot be decoded.", "quantifier": "every number of processes, program, endless history and interleaving that is fair in this sense, worker and job", "why_tests_cant": "No test runs for ever; that something happens at last is not seen in any finite run.", "anchors": ["rexecutor/src/job/runner.rs: spawn", "rexecutor/src/job/runner.rs: execute_job", "rexecutor-sqlx/src/backend.rs: Backend for RexecutorPgBackend"]}
{"id": "C110", "title": "Jobs that are due get taken when every part gets its turns", "statement": "In every endless history of a program on in-memory backends in which every call that has begun goes on, the clock runs, and a worker that stays at work and is not told to stop gets its turns, on a store that stays sound: after every instant there is a later one when no job of its executor scheduled for T or before waits, or when the worker takes such a job and fewer of them wait; and if from some time on no more of them come in, there is a time after which none waits, however many jobs scheduled for later there are.", "quantifier": "every program, endless history and interleaving that is fair in this sense, worker, instant T, and number of jobs", "why_tests_cant": "No test runs for ever; that something happens at last is not seen in any finite run.", "anchors": ["rexecutor/src/job/runner.rs: spawn", "rexecutor/src/backend/memory.rs: ReadyJobStream", "rexecutor/src/backend/memory.rs: subscribe_ready_jobs"]}
{"id": "C111", "title": "On Postgres too, jobs that are due get taken when every part gets its turns", "statement": "In every endless history of processes sharing a Postgres database in which no call stands still for ever, the clock runs, and a worker that stays at work and is not told to stop gets its turns, consider the jobs waiting for its executor whose priority number is at most P. If only streams lock them, no query of the worker's stream fails and no stream's transaction is broken off, and nobody puts them off past T: after every instant there is a later one when all of them are scheduled after T, or when one of them stops waiting. If moreover no more of them come in and they are due by T, there is a time after which none waits, however many jobs of a worse priority there are.", "quantifier": "every number of processes, program, endless history and interleaving that is fair in this sense, worker, priority P, instant T, and number of jobs", "why_tests_cant": "No test runs for ever; that something happens at last is not seen in any finite run.", "anchors": ["rexecutor/src/job/runner.rs: spawn", "rexecutor-sqlx/src/stream.rs: ReadyJobStream", "rexecutor-sqlx/src/lib.rs: load_job_mark_as_executing_for_executor"]}
{"id": "C112", "title": "On Postgres, a job is overtaken as long as jobs of a better priority come in", "statement": "Whatever job waits, and however long it has been due: from every state of processes sharing a Postgres database in which the calls have returned, a worker of its executor may ask for a job and can run what waits, and for every N the ids still allow: if N times a job with a smaller priority number that is due is enqueued as soon as the worker is done with the one before, there is a run in which the worker takes N jobs, every one of them with a smaller priority number than the waiting job, which stays exactly as it is.", "quantifier": "every number of processes, history, waiting job, request of a better priority, and number N of requests up to the ids there are", "why_tests_cant": "Tests enqueue a handful of jobs; that no number of overtakings is enough for a waiting job's turn needs an induction over all of them.", "anchors": ["rexecutor-sqlx/src/lib.rs: load_job_mark_as_executing_for_executor", "rexecutor/src/job/runner.rs: spawn"]}
{"id": "C113", "title": "The jobs of the example program end the way it sets them up to", "statement": "In examples/postgres: starting it starts one worker for each of its five executors, two schedules and two workers for the cron executor, and the pruner, and sets the global backend. Whatever the clock and the random generator give: the flaky job with three attempts fails with its panic, then with its error, each time to be retried after half a second to one and a half, and then completes, with both failures on record; the one with the default of one attempt is discarded at its first failure; the timeout job gets ten milliseconds per attempt, so that 15 ms of sleep time out once and then complete if the timers are prompt; the cancelled job is cancelled with its reason; the snooze job is put off once and then completes if the worker's clock is not behind the job's insertion (else it may be put off again); the other jobs complete. A prune of the program removes a complete cron job only if twenty at least as new are kept, another complete job only if it is scheduled more than a day ago, a discarded or cancelled one only after two days, and nothing else.", "quantifier": "every clock reading, build profile, draw of the random generator, delay of the timers, and table", "why_tests_cant": "The example is not run by any test, and one run shows one draw of the jitter and one order of events.", "anchors": ["examples/postgres/src/main.rs: main", "examples/postgres/src/main.rs: FlakyJob", "examples/postgres/src/main.rs: TimeoutJob", "examples/postgres/src/main.rs: SnoozeJob"]}
{"id": "C114", "title": "The example program's second snooze job overrides the first one's priority", "statement": "In examples/postgres, enqueueing SnoozeJob with priority 42 while another SnoozeJob has been enqueued within 60 seconds returns that job's id and sets its priority to 42, as the comment in the code says.", "quantifier": "every table, clock reading and history in between", "why_tests_cant": "It depends on whether a worker has taken the first job between the two calls, which a run of the example decides by chance.", "anchors": ["examples/postgres/src/main.rs: main", "examples/postgres/src/main.rs: SnoozeJob", "rexecutor-sqlx/src/lib.rs: insert_unique_job"]}
{"id": "C115", "title": "The example program's final query finds both of its basic jobs", "statement": "In examples/postgres, whatever its workers, cron schedules and pruner and other users of the table do in between: if all of it happens within a day, nobody reports either of the two basic jobs as anything but complete, edits them, enqueues a unique job that conflicts with basic jobs, or prunes by other rules than the program's, every basic job the table holds at the end decodes, and the query comes less than ten minutes after the earlier of the two jobs' schedules, then the query at the end of main returns at least two jobs and the final assertion holds, also after the second job has been rerun.", "quantifier": "every starting table, history of operations in between, clock readings, and other jobs in the table", "why_tests_cant": "The example is not run by any test, and its assertion is checked only for the run that happens.", "anchors": ["examples/postgres/src/main.rs: main", "rexecutor-sqlx/src/query.rs: ToQuery", "rexecutor-sqlx/src/lib.rs: rerun"]}
{"id": "C116", "title": "Every tick of the example program's cron schedules is a job of its own on Postgres", "statement": "In examples/postgres, each firing of the tick and of the tock schedule, of any number of copies of the program sharing the database and in any order, stores a new cron job with that schedule's data for that instant: neither does a tick stand in the way of a tock, nor is a firing for an instant taken for another copy's firing for the same instant, although the request asks for uniqueness by key, executor and instant.", "quantifier": "every number and order of firings, every instant, and every table whose uniqueness keys are those the program stores", "why_tests_cant": "The example is not run by any test; whether a firing collides with another depends on hash values of the data and of the criteria, and on the order in which copies fire.", "anchors": ["rexecutor/src/cron_runner.rs: enqueue_job", "rexecutor-sqlx/src/unique.rs: Unique", "examples/postgres/src/main.rs: main"]}
