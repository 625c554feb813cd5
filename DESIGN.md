# Formal model of rexecutor

Subject: `/repo` (crates `rexecutor` and `rexecutor-sqlx`), read as text at the pinned commit; nothing
was built or run.
Prover: Coq 8.16.1, files in `rocq/theories`, logical root `Verif`.
Build: `cd rocq && coq_makefile -f _CoqProject -o Makefile && make -j4`.

## How to read it

- *Model files* contain only total, computable definitions.  Each definition cites the Rust (or SQL)
  lines it follows and says where it simplifies.
- *Spec files* contain the vocabulary of the theorem statements.  They use the data types of the model
  (jobs, requests, rows, queries) but none of its functions.
- *Proof files* contain lemmas.
- *Props files* contain the theorems named in `MANIFEST.json`, each with `Print Assumptions` and an
  example with a concrete, non-trivial instance of the hypotheses.

A theorem named `_partial` proves the strongest true part of its property; its comment says what is
missing.  A theorem named `_refuted` gives a concrete execution of the unchanged code that violates the
property.

| files | contents |
|---|---|
| `Base` `Chrono` `Types` | machine integers and build profiles; `chrono` times; jobs, requests, criteria, errors, prune specs |
| `Query` | `Where` queries, backend queries, translation, in-memory matching |
| `Memory` | the in-memory backend, one operation at a time |
| `MemConc` | the same cut at every lock boundary, any number of callers and worker streams interleaved freely |
| `Backoff` | backoff strategies, jitter in IEEE binary64 (`SpecFloat`), default retry policy |
| `Codec` `Builder` `GlobalBackend` `Testing` | typed jobs, job builder, uniqueness criteria, process-wide backend, `assert_enqueued!` |
| `Ticker` `Pruner` | cron and pruner loops, prune rules |
| `Runner` | what happens to one job, the worker task, and workers over an in-memory store |
| `App` | the `Rexecutor` object: starting and stopping background tasks, the global backend |
| `World` | a whole program on in-memory backends: `App` whose streams and calls are those of `MemConc` stores |
| `Fleet` | processes that share a Postgres database: any number of `App`s whose streams and calls are those of `PgListen` |
| `PgRow` `PgQuery` `FxHash` `Pg` | Postgres backend: stored values, SQL text and its reading, hash, one operation at a time |
| `PgConc` | Postgres backend with overlapping calls, transactions, row and advisory locks, failures |
| `PgSys` | workers over the Postgres backend, one operation at a time |
| `Suite` | the conformance suite for backends and its runs |
| `OwnTests` | unit tests outside the conformance suite |
| `ExampleMain` | the example program `examples/postgres` |
| `PgListen` | announcements of jobs by the trigger, the listener of each process, and worker streams, over `PgConc` |
| `MemSpec` `WhereSpec` `MemConcSpec` `ApiSpec` `SchedSpec` `RunnerSpec` `AppSpec` `WorldSpec` `FairSpec` `FleetSpec` `PgSpec` `PgConcSpec` `PgListenSpec` `PgSysSpec` | specifications |
| `TypesProofs` `QueryProofs` `MemProofs` `MemHist` `MemHist2` `MemNotify` `MemInv` `WhereProofs` `MemThms` `MemConcProofs` `MemConcThms` `MemWake` `BackoffProofs` `BackoffFloat` `ApiProofs` `SchedProofs` `WorkerProofs` `SysProofs` `DrainProofs` `PgDrain` `AppProofs` `AppEnd` `WorldProofs` `WorldInv` `WorldThms` `WorldOnce` `WorldLive` `WorldWork` `WorldFair` `WorldRest` `WorldDue` `WorldIdle` `FleetLink` `FleetInv` `FleetThms` `FleetOnce` `FleetLive` `FleetWork` `FleetFair` `FleetRest` `FleetDue` `FleetIdle` `FleetStarve` `PgProofs` `PgQueryProofs` `PgOps` `PgHist` `PgConcProofs` `PgConcHist` `PgConcUniq` `PgConcLive` `PgConcPast` `PgConcEnd` `PgListenProofs` `PgSysProofs` `SuiteProofs` `SuitePrune` `SuiteMem` `SuitePg` `OwnProofs` | lemmas |
| `Samples` | concrete requests and histories for examples |
| `PropsMem` `PropsConc` `PropsBackoff` `PropsApi` `PropsSched` `PropsRunner` `PropsDrain` `PropsApp` `PropsWorld` `PropsFair` `PropsFairDue` `PropsFleet` `PropsFleetFair` `PropsFleetDue` `PropsFleetStarve` `PropsExample` `PropsExampleEnd` `PropsPg` `PropsPgHist` `PropsPgConc` `PropsPgAnswer` `PropsPgListen` `PropsPgRefuse` `PropsPgIdent` `PropsPgRead` `PropsPgSys` `PropsPgDrain` `PropsSuite` `PropsOwn` `PropsEdge` | theorems |

## Conventions

- Time is a `Z` number of nanoseconds since the Unix epoch; durations are `Z` nanoseconds.  chrono's
  range checks are modelled; leap seconds are not.
- A Rust panic is an explicit value (`Panic`, `RPanic` or `None`); theorems say when it occurs.  A panic
  while a lock is held poisons the lock (`m_poisoned`).
- Integer overflow depends on the build profile: `Debug` panics, `Release` wraps.  Theorems quantify over
  both profiles unless they say otherwise.
- Reading the clock is an argument of the operation.  Theorems quantify over the readings; where a
  theorem needs them to be ordered it says so.
- An executor's Rust types are parameters (`codec D M`): encoding to and decoding from JSON are arbitrary
  partial functions unless a theorem assumes that decoding inverts encoding.
- Concurrency is a transition system with labels for "which caller or stream goes next"; theorems quantify
  over all label sequences, hence over all interleavings and any number of callers.

## Trusted base

1. Coq's kernel (and `coqc`/`coqchk`).
2. Axioms listed by `Print Assumptions`.  Every theorem is closed under the global context except
   `C35_relative`, `C35_infinite` and `C88_jitter_f64`, which relate `f64` arithmetic to real numbers and so depend on the standard library's
   `ClassicalDedekindReals.sig_not_dec`, `ClassicalDedekindReals.sig_forall_dec`,
   `FunctionalExtensionality.functional_extensionality_dep` and `Classical_Prop.classic` (through Flocq,
   which adds none of its own).  No axiom is added here; there is no `Admitted`, no functor or module
   type and no switched-off check.
3. The reading of the Rust and SQL sources, definition by definition, as cited.
4. The behaviour assumed of code outside `/repo`, below.

### Modelled parts of the code

| source | model |
|---|---|
| `rexecutor/src/backend/memory.rs` | all functions: `Memory`, `MemConc` |
| `rexecutor/src/backend/queryable.rs`, `job/query.rs` | `Query` |
| `rexecutor/src/backend.rs` | data types and error types: `Types`; the trait is realised by the two backends |
| `rexecutor/src/backoff.rs` | `Backoff`, all strategies, setters and jitters |
| `rexecutor/src/job.rs` | `Types`, `Codec` |
| `rexecutor/src/job/builder.rs`, `job/uniqueness_criteria.rs` | `Builder` |
| `rexecutor/src/job/runner.rs` | `Runner` |
| `rexecutor/src/cron_runner.rs`, `pruner/runner.rs` | `Ticker`, `Pruner` |
| `rexecutor/src/pruner.rs` | `Pruner` |
| `rexecutor/src/global_backend.rs` | `GlobalBackend` |
| `rexecutor/src/testing.rs` | `Testing` |
| `rexecutor/src/backend/testing.rs` | `Suite`; one test's spawned task and another's two streams are taken in order |
| `rexecutor/src/executor.rs` | default methods and backend-calling functions: `Codec`, `GlobalBackend`, `Backoff` (default policy) |
| `rexecutor/src/lib.rs` | `App`, all functions |
| `examples/postgres/src/main.rs` | `ExampleMain`: the executors, what `main` starts, the requests, the query at its end; not its printing, sleeps and environment |
| `rexecutor-sqlx/src/lib.rs`, `backend.rs`, `types.rs`, `unique.rs`, `query.rs` | `Pg`, `PgRow`, `PgQuery`, `FxHash`, `PgConc`, `PgListen` (listener, subscriptions) |
| `rexecutor-sqlx/src/stream.rs` | `PgListen` |
| `rexecutor-sqlx/migrations/…up.sql` | columns, types and checks: `PgRow`; trigger: `PgListen` |

### Not modelled

- `tracing` output, `Display`/`Debug` texts except where they end up in stored data.
- The tokio runtime being shut down while tasks run; tasks being starved.  Theorems about what must happen
  (C106-C111) have fairness as a hypothesis, in the words of `FairSpec.v`: calls that have begun go on, a task
  or a job that can take steps takes one, (C106, C108) a loop that can leave
  again and again leaves, and (C110, C111) a stream that can be polled is polled and the clock passes every instant.  That
  tokio, its mutexes and `select!`, and Postgres's lock queues and deadlock detection provide this is not modelled.
- Test-only code other than `backend/testing.rs`, the unit tests of `backoff.rs`, `queryable.rs`, `testing.rs` and
  `rexecutor-sqlx/src/backend.rs`, and the test of poisoned job locks in `memory.rs`.
- Database pools, connection set-up, migrations being run, and the down migration.
- `pg_notify`'s refusal of announcements of 8000 bytes or more (an executor name would have to be that long).
- Postgres evaluating the subselect of the hand-out query a second time after waiting for a row
  (`EvalPlanQual`): `FOR UPDATE SKIP LOCKED` in it never waits.
- Memory exhaustion.

### Assumptions about code outside the repository

- **tokio, futures**: tasks may be advanced in any order; an unbounded channel keeps messages in order and
  loses none; a sleep ends at or after its deadline, never before; the wall clock and the timer clock are
  one clock that never goes back (`Ticker`, `C30`); `for_each_concurrent` is a set of at most `limit`
  futures that takes a new item when it has room; a cancelled `select!` branch is dropped; a panic inside
  a spawned task is turned into `JoinError::Panic`; `OnceCell::set` is one atomic step.
- **std locks**: a panic while a write guard is held poisons the lock; the subscriber lock of the in-memory
  backend is never poisoned, since no code panics while holding it.
- **chrono 0.4.44**: ranges and truncation as in `Chrono`; C71 checks the limits against a calendar.
- **cron 0.16**: `Schedule::upcoming(tz).next()` is an oracle; theorems that need it assume that it gives the
  next instant of some fixed set of instants.
- **rand**: `random_range` is an arbitrary member of the range.
- **serde, serde_json**: see `codec`; JSON numbers are integers only, objects are entry lists in key order.
- **fxhash 0.2.1**: written down from its published algorithm (`FxHash`); for the criteria's `hash` of a user
  value the hash is an oracle.
- **Rust formatting**: `format!("{:?}")` of a `Duration` is an oracle (`show_duration`).
- **macro_rules**: a `$n:literal` fragment forwarded to an inner macro rule is opaque and no longer matches a
  literal token; `Testing` follows the language reference in this.
- **sqlx 0.8**: binds values in the order pushed; its sessions use UTC; a database or encoding error reaches
  the code as `sqlx::Error`, which `map_err` turns into `BadState`, `IoError`s into `Io`; instants are sent in
  microseconds, truncated as `PgRow` says.
- **Postgres 13-17**: operator precedence of `NOT`, `AND`, `OR`; `text` and `jsonb` cannot hold zero bytes;
  `smallint`/`int` range checks; ordering with ties in any order; at READ COMMITTED: statement snapshots,
  row locks held until the transaction ends, `SKIP LOCKED`, re-checking of rows that changed since the
  snapshot, sequences never rolled back, `now()` fixed at the start of the transaction, transaction-level
  advisory locks; a deadlock is resolved by ending one of the statements.  The subquery of the hand-out
  statement is evaluated once; a prune locks its rows in the order of its subquery.  Numbers in `jsonb` are
  integers.

## Findings

Where the unchanged code violates the property, the `_refuted` theorem has the witness.  The main ones:

- In-memory backend: a conflicting unique enqueue writes a stale copy of a job back (C06, C07, C08, C20);
  key-less criteria, age and length pruning differ from their documentation (C11, C25, C26); an oversized
  prune age poisons the store for everybody (C57); updating a job replaces all of it (C56).
- Postgres backend: the SQL text of queries lacks parentheses, so negations and nested disjunctions mean
  something else, and a user's query can reach other executors' jobs (C24, C51); keyed uniqueness never finds
  the earlier job (C52); a row that cannot be read back is marked executing and stays so (C65, C66);
  replacement and pruning act on rows that changed since they were checked (C69, C70); two of its tests depend
  on how fast the machine is (C86); prunes can block each other until Postgres ends one (C67); a connection
  lost after the commit makes a caller repeat what was done (C87).
- Runner: attempt counters beyond `u16` or an out-of-range snooze kill the worker (C39); payloads that do not
  decode leave the job executing for ever (C40), and so does a failure whose message Postgres refuses (C84); requests allowing zero attempts still run (C17).
- Others: panicking backoff configurations (C37), non-monotone backoffs (C34), metadata encoded as `null` is
  lost (C47), `1 job, to: b` in `assert_enqueued!` does not count (C50), each node's cron tick adds a job (C44),
  the pruner's concurrency limit is not respected (C45).
- `Rexecutor`: each cron schedule of an executor starts another worker, so its concurrency limit does not hold
  for the process (C80); a refused `set_global_backend` drops the `Rexecutor`, whose tasks can then not be
  stopped (C81); a loop may act once more after a shutdown (C83).
- Tests: a test of the uniqueness window fails if two readings of the clock agree (C89).

## Testing the theorems

`seeded/LOG.jsonl` has one line per attempt to pass off a wrong program: the definition edited in a scratch
copy, the edit, the claim it breaks, and the theorems that failed.  Where an edit went unnoticed the line says
which theorem was added or tightened, or why no claim becomes false.  Most edits are generated; for those the
broken claim was not judged by hand.  A build stops at the first proof that fails (`failed_at`); manifest theorems
that use that proof are listed apart from those seen to fail.  Edits that did not type-check are not listed.

## Status of the properties

| id | title | status | note |
|---|---|---|---|
| C01 | Enqueue stores exactly what was described | proved | In-memory backend, one enqueue at a time; needs fewer than 2^32 enqueues (ids wrap). |
| C02 | Job ids are unique | proved | In-memory backend, any interleaving, up to 2^32 enqueue calls. |
| C03 | An accepted job is never lost | proved | Both backends, any interleaving. |
| C04 | Only due, waiting jobs of the executor are handed out | proved | In-memory backend. |
| C05 | Hand-out order | proved | In-memory backend. |
| C06 | A job is not handed out twice | partial | The code violates the property: the write-back of a conflicting unique enqueue can release a job that is executing. Proved for executions without unique enqueues, and with the write-back as the only exception. |
| C07 | Conflicting enqueue with do-nothing changes nothing | partial | Holds when nothing overlaps; refuted for overlapping calls. |
| C08 | Concurrent enqueues of the same unique job insert one job | partial | In-memory backend: holds for calls one after the other; refuted for overlapping calls. Postgres: proved for criteria without a key (with one see C52). |
| C09 | Sequential uniqueness | proved | In-memory backend. |
| C10 | Conflict replacement touches only what was asked | proved | Both backends, one operation at a time; Postgres for values the columns can keep. |
| C11 | Criteria without a key compare against all jobs | partial | Holds on Postgres; the in-memory backend violates it (witness). |
| C12 | Same uniqueness decision on both backends | partial | Agree for criteria without key and time window when no stored job has a key; otherwise they differ (witnesses). |
| C13 | Status operations touch exactly one job | proved | Both backends; Postgres for values the columns can keep, and overlapping. |
| C14 | Attempt count accounting | proved | In memory for histories of at most 2^31-1 operations; on Postgres as long as errors are recorded for attempts of 16 bits. |
| C15 | Snoozing does not use up an attempt | proved | Both backends; Postgres for values the columns can keep. |
| C16 | Failure history is append-only | proved | In memory for histories of at most 2^31-1 operations; on Postgres as long as errors are recorded for attempts of 16 bits. |
| C17 | Attempts never exceed max attempts | partial | Proved for requests that allow at least one attempt and do not change the number for existing jobs; false otherwise (witnesses). |
| C18 | A job that keeps failing is discarded exactly at its last attempt | proved | In-memory store with workers. |
| C19 | Rerun makes a finished job runnable with one more attempt | proved | In-memory backend. |
| C20 | A cancelled job does not run again | partial | Holds unless a worker still holding the job reports a retry or snooze, or a conflicting unique enqueue writes the job back; the first case is refuted. |
| C21 | Finished jobs stay finished | proved | In-memory backend. |
| C22 | Query returns exactly the matching jobs | proved | In-memory backend. |
| C23 | Query combinators are boolean algebra | proved |  |
| C24 | Executor queries see only that executor's jobs | partial | C24_executor_query_postgres_exact: exactly which jobs a query through an executor shows. Proved for the in-memory backend and for conjunctions on Postgres; false for disjunctions on Postgres, whose SQL lacks parentheses (witness). |
| C25 | Age pruning removes exactly the old jobs | partial | In-memory backend prunes both sides of the clock. |
| C26 | Length pruning keeps the newest n | partial | In-memory backend removes the n oldest instead of keeping the n newest. |
| C27 | Pruning never touches jobs outside its specification | proved | In-memory backend. |
| C28 | Pruner scope combinators | proved | Every expression that type-checks; names are arbitrary strings. |
| C29 | No lost wake-up | proved | In-memory backend. |
| C30 | Stream wake-up time | proved | In-memory backend. |
| C31 | Paused mode | proved |  |
| C32 | Every due job is eventually handed out | proved | In-memory backend. |
| C33 | Backoff formula and bounds | proved | For every constructor followed by any setters; exponential backoff works in whole seconds. |
| C34 | Backoff never shrinks as attempts grow | partial | Fails for an exponential base below one second at attempt 0, and for a polynomial power overflowing i32 without overflow checks. |
| C35 | Jitter stays within its band | proved | Relative jitter up to half a millisecond and the stated f64 error; uses the axioms of the standard library's real numbers. |
| C36 | Default retry policy | proved |  |
| C37 | Computing a backoff never crashes | partial | Several API-constructible configurations panic; proved where no intermediate result leaves its type. |
| C38 | Each execution result is reported once and correctly | proved | As long as the worker lives; what kills it is C39. |
| C39 | A bad job cannot stop the worker | partial | Proved for jobs whose counters and delays are in range; out-of-range ones kill the worker, and so does a panicking stream (witnesses). |
| C40 | Every handed-out job is resolved | partial | Proved for jobs that decode; undecodable jobs stay executing (witness). On Postgres so do jobs whose report is refused. |
| C41 | Concurrency limit | proved | for_each_concurrent modelled as a set of message futures. |
| C42 | Graceful shutdown | partial | Proved for jobs the worker has taken from the stream; a job in transit inside the Postgres stream is lost (witness). |
| C43 | Cron ticks are enqueued once, in order, on time | proved | Schedule is an arbitrary set of instants with a next-instant oracle; one clock that never goes back; sleeps never end early. |
| C44 | Cron jobs are not duplicated across nodes | partial | False on both backends: every node's tick adds a job (witnesses). |
| C45 | Pruner runs every rule | partial | All rules run whatever errors they return; the concurrency limit is not respected (witness) and a panicking rule stops the others (witness). |
| C46 | Builder means what it says | proved | Serialization is an oracle. |
| C47 | Payload round trip | partial | Proved for metadata types no value of which serializes to null; the code loses such metadata (witness). |
| C48 | Typed and stored job conversions are inverse | partial | Proved for counters that fit u16; the code panics otherwise (witness: rerun of a job with 65535 attempts). |
| C49 | Global backend is set once | proved | Setting the cell is one atomic step. |
| C50 | Enqueue assertions count exactly | partial | All forms except '1 job, to: b', which only checks that there is some job (witness). |
| C51 | Postgres query means the same as in memory | partial | C51_as_read: exactly what every query without empty parts and refused values selects. Proved for queries whose text needs no parentheses; the generated SQL is wrong for negated conjunctions, nested disjunctions and id lists (witnesses). |
| C52 | Postgres uniqueness by key | partial | False: the stored identifier is a hash of the criteria but the lookup compares it with the bare key. |
| C53 | Postgres hand-out is exclusive and ordered by priority | proved | Any number of overlapping calls, each advanced or failing at any moment, at the isolation level READ COMMITTED as described in PgConc.v. |
| C54 | Postgres enum encodings round-trip | partial | Statuses and texts round-trip; three custom error names read back as built-in types (witness). |
| C55 | Both backends implement the same status operations | partial | Proved for values the columns can keep and attempts that fit 16 bits; otherwise the backends differ (witnesses). |
| C56 | Update has the same effect on both backends | partial | Holds on Postgres; the in-memory update replaces the whole job (witness). |
| C57 | No operation can break the backend for others | partial | A prune with an oversized age breaks the backend for everybody. |
| C58 | Wake-ups go to the right streams | proved |  |
| C59 | Postgres pruning | proved | Names without zero bytes and cut-offs the database can represent. |
| C60 | Job life cycle | proved | In-memory store with any number of workers. |
| C61 | Uniqueness criteria expressions mean what they say | proved | The hash function is an oracle. |
| C62 | Nothing but an update or a replacing enqueue changes what a job is for | proved | Both backends, one operation at a time. |
| C63 | Postgres ids are unique and never reused | proved | One operation at a time, and overlapping. |
| C64 | Postgres keeps times to the microsecond | proved | As sqlx encodes times. |
| C65 | A failed Postgres operation changes nothing | partial | Holds except for hand-outs of rows that cannot be read, which stay executing (witness). |
| C66 | Postgres tables stay readable | partial | Holds as long as errors are recorded for attempts of 16 bits; otherwise false (witness). |
| C67 | Overlapping Postgres calls can always finish | proved | Possibility, not fairness. That prunes do have to be ended is the witness. |
| C68 | A Postgres call that is not interfered with behaves as if alone | proved |  |
| C69 | A replacement on Postgres respects its status list while others work | partial | Fields and origin proved; the status may have changed since it was checked (witness: the data of an executing job is replaced). |
| C70 | A Postgres prune deletes only what fits while others work | partial | The specification held when the prune looked; a job handed out since is deleted all the same (witness). |
| C71 | Date arithmetic fails exactly outside the calendar | proved | chrono's arithmetic as the model uses it, against an independent calendar. |
| C72 | No wake-up is lost on Postgres | partial | Proved while the listener runs and its connection is not broken; false in general: a job scheduled after the year 9999 (or before 1) makes the listener of every process panic (witness). |
| C73 | Postgres streams sleep for a bounded time | proved |  |
| C74 | Postgres workers are given a job once | proved |  |
| C75 | Postgres streams hand out due jobs | proved |  |
| C76 | Postgres refuses what it cannot store | proved |  |
| C77 | Identifiers of uniqueness criteria | partial | Keys that differ give different identifiers; criteria that differ need not: one key hashes like no key at all (witness). |
| C78 | A Rexecutor starts what it is asked to start | proved |  |
| C79 | Shutting a Rexecutor down stops its tasks and no others | proved | That a task can end is proved, not that the runtime will let it. |
| C80 | MAX_CONCURRENCY holds in the whole process | partial | The limit holds for each registration; an executor with two cron schedules runs twice as many (witness). |
| C81 | Every task can be stopped | partial | Exactly when it can be done is proved; a refused set_global_backend loses the Rexecutor and its tasks run for ever (witness). |
| C82 | The global backend is the first one set | proved |  |
| C83 | No tick after a shutdown | partial | A sleeping loop acts after the shutdown only if it was not polled before its sleep was over; then it may (witness). |
| C84 | Life cycle on Postgres under workers | proved | The histories are the orderly ones, defined in PgSysSpec.v. |
| C85 | The in-memory backend passes the conformance suite | proved | Tests are run one at a time; the spawned task of one test and the two streams of another are taken in order. |
| C86 | The Postgres backend passes the conformance suite | partial | Proved if a step takes between a microsecond and thirty milliseconds. A test fails if steps take fifty milliseconds, another if the clock stands still (witnesses). |
| C87 | A Postgres call's answer tells what it did | partial | A failure means that nothing was changed except when a row that cannot be read was handed out, or when the connection breaks after the commit (witness). |
| C88 | The backoff tests cannot be flaky | proved |  |
| C89 | The other unit tests cannot be flaky | partial | Proved for all clocks that do not go back, except that the tests of queryable.rs need one that advances at every reading: one of them fails if it stands still (witness). The tests of lib.rs with a mock backend are left out: what they expect is checked in a spawned task whose panics are lost. |
| C90 | Work comes to an end | proved | Requests allow at least one attempt and do not change that number for existing jobs, as for C60. Hand-outs are not bounded by attempts: a job may snooze for ever (witness). |
| C91 | Work comes to an end on Postgres | proved | Requests allow at least one attempt and do not change that number for existing jobs, as for C84. |
| C92 | A program is its parts, put together | proved | For programs on in-memory backends (World.v). |
| C93 | Jobs go from the stores to the workers | proved | For programs on in-memory backends (World.v). |
| C94 | Calls go from the tasks to the stores | proved | For programs on in-memory backends (World.v). |
| C95 | No job is run by two workers at once | partial | Proved for programs whose own calls neither enqueue with uniqueness criteria nor reopen a job; without that bound by the number of write-backs of unique enqueues and reopenings. A unique enqueue writes back what it read, so a job taken in between is taken again (witness). |
| C96 | A task does not leave its calls behind | proved | For programs on in-memory backends (World.v). |
| C97 | A shutdown can always be completed | proved | For programs on in-memory backends (World.v). Possibility: some schedule of the tasks' own steps ends them; fairness of the runtime is not modelled. Concurrency limits are non-negative, as in the code (`Option<usize>`). |
| C98 | What is due can be done | proved | For programs on in-memory backends (World.v) whose waiting jobs can be decoded, on stores that are not poisoned and have had at most 2^32 enqueues. Possibility: some schedule of the workers' own steps does the work; fairness of the runtime is not modelled. |
| C99 | A fleet is its parts, put together | proved | For processes sharing a Postgres database (Fleet.v). |
| C100 | Jobs go from the database to the workers of all processes | proved | For processes sharing a Postgres database (Fleet.v). |
| C101 | Calls go from the tasks of all processes to the database | proved | For processes sharing a Postgres database (Fleet.v). |
| C102 | No job is at two workers of a fleet at once, unless a program releases it | proved | For processes sharing a Postgres database (Fleet.v). A program that reruns a job while it is being run does get it run twice at once (witness). |
| C103 | A task of a fleet does not leave its calls behind | proved | For processes sharing a Postgres database (Fleet.v). |
| C104 | A shutdown of a process on Postgres can always be completed | proved | For processes sharing a Postgres database (Fleet.v). Possibility: some schedule of the tasks' own steps and of the calls ends them; fairness of the runtime is not modelled. Only prunes that keep rows from each other may have to be ended by Postgres (its deadlock detector). Concurrency limits are non-negative, as in the code (`Option<usize>`). |
| C105 | The workers of a fleet can always run and complete the jobs that are due | proved | For processes sharing a Postgres database (Fleet.v) whose waiting rows can be read and decoded. Possibility: some schedule of the workers' own steps and calls does the work; fairness of the runtime is not modelled. C105_ready is about a worker between items of its stream (w_transit = None), C105_always_ready is not; limits are non-negative, as in the code. |
| C106 | A shutdown completes when every part gets its turns | proved | For whole programs on in-memory backends (World.v). Fairness is a hypothesis (FairSpec.v): calls that have begun go on, weak fairness for each task's steps, strong fairness for a loop's leaving (tokio's select! picks among ready branches at random). C106_loop_refuted shows that the last is needed. Limits are non-negative, as in the code. |
| C107 | A job that was taken is reported when every part gets its turns | proved | For whole programs on in-memory backends (World.v), under the fairness hypotheses of FairSpec.v: calls that have begun go on, and the steps of each job in hand are weakly fair; a job's run that never returns is excluded by these. |
| C108 | A shutdown on Postgres completes when every part gets its turns | proved | For processes that share Postgres (Fleet.v), from every sound table. Fairness is a hypothesis (FairSpec.v): no call stands still for ever (Postgres's lock queues and deadlock detection), weak fairness for each task's steps, strong fairness for a loop's leaving. C108_loop_refuted shows that the last is needed. |
| C109 | On Postgres too, a job that was taken is reported when every part gets its turns | proved | For processes that share Postgres (Fleet.v), under the fairness hypotheses of FairSpec.v: no call stands still for ever, and the steps of each job in hand are weakly fair. The answer may be an error: a report that fails is C84's and C87's subject. |
| C110 | Jobs that are due get taken when every part gets its turns | proved | For whole programs on in-memory backends (World.v), under the fairness hypotheses of FairSpec.v: calls go on, polls of the worker's stream and the steps of each job in hand are weakly fair, and the clock passes every instant. The worker stays at work: a worker that crashes is C39's subject, a poisoned store C30's. |
| C111 | On Postgres too, jobs that are due get taken when every part gets its turns | proved | For processes sharing Postgres (Fleet.v), under the fairness hypotheses of FairSpec.v. Hypotheses beyond C110: nobody but streams locks the rows, the stream's queries do not fail, attempts fit the column. The line is bounded by priority because the query orders by priority first: jobs of a better priority that keep coming in may hold up the others. |
| C112 | On Postgres, a job is overtaken as long as jobs of a better priority come in | proved | For processes sharing Postgres (Fleet.v). The other side of C111: why its line of jobs is bounded by a priority. Clock readings are all at or after T; they are not required to be in order. |
| C113 | The jobs of the example program end the way it sets them up to | proved | The lives are those of a job to which the backend does what C13 and C53 prove it does. Which of the two timers of the timeout job fires first is an oracle. C113_snooze_refuted shows what happens when the worker's clock is behind the database's. The clock is at least four seconds from the end of chrono's range. |
| C114 | The example program's second snooze job overrides the first one's priority | partial | Holds while the first job still waits (status scheduled) and is the only one that does. Refuted otherwise: the criteria keep their default of conflicting with scheduled jobs only, so when a worker has taken the first job a second one is made and the first keeps its priority. |
| C115 | The example program's final query finds both of its basic jobs | proved | For the program of ExampleMain.v on Postgres (Pg.v), operation by operation; what the two jobs' runs report is C113_basic. The hypotheses on the history (program_op) are about what others may do: an edit, a conflicting unique job with replace, or a prune by other rules could take a job out of the query. |
| C116 | Every tick of the example program's cron schedules is a job of its own on Postgres | proved | For the cron requests of the example on Postgres (Pg.v), with the hash functions of FxHash.v computed. The stored key is the identifier made from the key, not the key (C52), so equal requests do not conflict; C44 has this as its witness, here it is shown for all firings. |
