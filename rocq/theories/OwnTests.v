(** Unit tests of the project outside the conformance suite which run code modelled here: those of
    rexecutor/src/backend/queryable.rs, rexecutor/src/backend/memory.rs 627-710 and
    rexecutor-sqlx/src/backend.rs 215-375.  The tests of backoff.rs are stated directly in PropsOwn.v.

    Simplifications: as in Suite.v; reading the clock is a step of its own ([Now]). *)
From Verif Require Import Base Chrono Types Query Builder FxHash Memory Pg Suite.

(** * rexecutor/src/backend/queryable.rs *)

(** 97-98: every element passes. *)
Definition all_match (qs : list query) (j : job) (k : prog) : prog :=
  check (forallb (fun q => query_matches q j) qs) k.
(** 116: no element passes. *)
Definition none_match (qs : list query) (j : job) (k : prog) : prog :=
  check (forallb (fun q => negb (query_matches q j)) qs) k.
(** [TimeDelta::hours(1)], among others 97. *)
Definition an_hour : delta := 3600 * ns_per_s.
(** 84-154; [earlier] and [later] are an hour from the time of the job. *)
Definition own_query_matches : prog :=
  raw_job (fun j =>
  shift (dt_add (j_scheduled_at j) an_hour) (fun later =>
  shift (dt_sub (j_scheduled_at j) an_hour) (fun earlier =>
    let matching :=
      [QExecutorEqual (j_executor j); QIdEquals (j_id j); QIdIn [j_id j; 42]; QDataEquals (j_data j);
       QMetadataEquals (j_metadata j); QStatusEqual (j_status j); QScheduledAtEqual (j_scheduled_at j);
       QScheduledAtBefore later; QScheduledAtAfter earlier; QTagsAllOf []] in
    let other :=
      [QExecutorEqual "another_executor"%string; QIdEquals (j_id j + 1); QIdIn [42; j_id j + 1];
       QDataEquals (JNum 42); QMetadataEquals (JNum 42); QStatusEqual Executing; QScheduledAtEqual later;
       QScheduledAtBefore earlier; QScheduledAtAfter later; QTagsAllOf ["tag"%string];
       QTagsOneOf ["tag"%string]] in
    all_match matching j
      (none_match (map QNot matching) j
        (all_match [QAnd matching; QOr matching] j
          (none_match other j
            (all_match (map QNot other) j
              (none_match [QAnd other; QOr other] j
                (none_match [QAnd (other ++ matching)] j
                  (all_match [QOr (other ++ matching)] j (Fin true))))))))))).

(** rexecutor/src/backend.rs 473-475: [with_tags]. *)
Definition with_job_tags (tags : list string) (j : job) : job :=
  {| j_id := j_id j; j_status := j_status j; j_executor := j_executor j; j_data := j_data j;
     j_metadata := j_metadata j; j_attempt := j_attempt j; j_max_attempts := j_max_attempts j;
     j_priority := j_priority j; j_tags := tags; j_errors := j_errors j; j_inserted_at := j_inserted_at j;
     j_scheduled_at := j_scheduled_at j; j_attempted_at := j_attempted_at j; j_completed_at := j_completed_at j;
     j_cancelled_at := j_cancelled_at j; j_discarded_at := j_discarded_at j |}.
(** 156-179. *)
Definition own_query_tags : prog :=
  raw_job (fun j =>
    let j := with_job_tags ["tag1"; "tag2"]%string j in
    all_match
      [QTagsAllOf ["tag1"; "tag2"]%string; QTagsOneOf ["tag1"; "tag2"]%string; QTagsAllOf ["tag1"]%string;
       QTagsOneOf ["tag1"]%string; QTagsAllOf ["tag2"]%string; QTagsOneOf ["tag2"]%string] j
      (none_match [QTagsAllOf ["tag1"; "tag2"; "tag3"]%string; QTagsOneOf ["tag3"]%string; QTagsAllOf ["tag3"]%string] j
        (Fin true))).

(** 181-197. *)
Definition own_prune_spec : prog :=
  raw_job (fun j =>
    check (prune_matches (mk_prune_spec (j_status j) (MaxLength 5) (Only [default_executor])) j)
      (check (negb (prune_matches (mk_prune_spec Executing (MaxLength 5) (Only [default_executor])) j)) (Fin true))).

(** 199-208. *)
Definition own_spec : prog :=
  raw_job (fun j =>
    check (negb (spec_matches (Except [default_executor]) j))
      (check (spec_matches (Only [default_executor]) j)
        (check (spec_matches (Except [other_executor]) j)
          (check (negb (spec_matches (Only [other_executor]) j)) (Fin true))))).

(** [into_job], which reads the clock (rexecutor/src/backend/memory.rs 244-268). *)
Definition into_job_ (id : Z) (e : enqueuable) (k : kjob -> prog) : prog := Now (fun now => k (into_job now id e)).
(** [assert!(enqueuable_job.matches(job))], among others 229; reads the clock, as in a window at
    69, also where the outcome does not depend on it. *)
Definition same_ (expected : bool) (e : enqueuable) (j : kjob) (k : prog) : prog :=
  Now (fun now => check (Bool.eqb (enqueuable_matches now e j) expected) k).
(** Replacing the job of a [KeyedJob], rexecutor/src/backend/memory.rs 534-553. *)
Definition on_job (f : job -> job) (j : kjob) : kjob := mk_kjob (f (kj_job j)) (kj_key j).

(** 210-216. *)
Definition own_no_criteria : prog := mock_job (fun e => into_job_ 42 e (fun j => same_ false e j (Fin true))).

(** 218-230. *)
Definition own_by_executor : prog :=
  mock_job (fun e => let e := with_uniqueness by_executor e in
  into_job_ 42 e (fun j1 => mock_job (fun e2 => into_job_ 43 (with_executor "other"%string e2) (fun j2 =>
  same_ true e j1 (same_ false e j2 (Fin true)))))).

(** 232-245; [fxhash::hash64] of an [i32] is one round, uniqueness_criteria.rs 579. *)
Definition own_by_key : prog :=
  mock_job (fun e => let e1 := with_uniqueness (by_key (hash_word 0 42)) e in
  into_job_ 42 e1 (fun j1 => into_job_ 43 (with_uniqueness (by_key (hash_word 0 43)) e1) (fun j2 =>
  same_ true e1 j1 (same_ false e1 j2 (Fin true))))).

(** 247-260. *)
Definition own_by_statuses : prog :=
  mock_job (fun e => let e := with_uniqueness (by_statuses [Retryable]) e in
  into_job_ 42 e (fun j1 => into_job_ 43 e (fun j2 =>
  same_ false e j1 (same_ true e (on_job (set_status Retryable) j2) (Fin true))))).

(** [Utc::now() + ..] with two differences in turn, among others 276. *)
Definition from_now (d d' : delta) (k : time -> prog) : prog :=
  Now (fun now => shift (dt_add now d) (fun t => shift (dt_add t d') k)).
(** [TimeDelta::days(1)], 264, and [TimeDelta::minutes(1)], 278. *)
Definition one_day : delta := 86400 * ns_per_s.
Definition one_minute : delta := 60 * ns_per_s.
(** 262-294; a subtraction is the addition of the opposite. *)
Definition own_within : prog :=
  mock_job (fun e => let e := with_uniqueness (within one_day) e in
  into_job_ 42 e (fun j1 =>
  into_job_ 43 e (fun j2 => from_now one_day 0 (fun t2 =>
  into_job_ 43 e (fun j3 => from_now (- one_day) one_minute (fun t3 =>
  same_ true e j1 (same_ true e (on_job (set_scheduled_at t2) j2) (same_ true e (on_job (set_scheduled_at t3) j3)
    (into_job_ 43 e (fun j4 => from_now one_day one_minute (fun t4 =>
     into_job_ 43 e (fun j5 => from_now (- one_day) 0 (fun t5 =>
     same_ false e (on_job (set_scheduled_at t4) j4) (same_ false e (on_job (set_scheduled_at t5) j5)
       (Fin true))))))))))))))).

(** The tests of queryable.rs, 84-294. *)
Definition queryable_tests : list (string * prog) :=
  [("query_matches"%string, own_query_matches); ("query_matches_tags"%string, own_query_tags);
   ("prune_spec_matches"%string, own_prune_spec); ("spec_matches"%string, own_spec);
   ("enqueuable_job_no_uniqueness_criteria"%string, own_no_criteria);
   ("enqueuable_job_uniqueness_criteria_by_executor"%string, own_by_executor);
   ("enqueuable_job_uniqueness_criteria_by_key"%string, own_by_key);
   ("enqueuable_job_uniqueness_criteria_by_statuses"%string, own_by_statuses);
   ("enqueuable_job_uniqueness_criteria_within"%string, own_within)].

(** * rexecutor/src/backend/memory.rs *)

(** [assert_matches!(.., Err(BackendError::BadState))], among others 657-660. *)
Definition bad_state_ (o : mop) (k : prog) : prog :=
  Call o (fun r =>
    match r with
    | RId (Err BadState) | RUnit (Err BadState) | RJobs (Err BadState) => k
    | _ => Fin false
    end).
(** 657-705: what follows the panic of the task that holds the lock; [id] is the id of the job
    enqueued before, 629. *)
Definition own_bad_state (id : Z) : prog :=
  tomorrow (fun at_ => mock_job (fun e => raw_job (fun j =>
    bad_state_ (OpEnqueue e)
      (bad_state_ (OpComplete id)
        (bad_state_ (OpRerun id)
          (bad_state_ (OpRetryable id at_ custom_error)
            (bad_state_ (OpDiscarded id custom_error)
              (bad_state_ (OpCancelled id custom_error)
                (bad_state_ (OpSnoozed id at_)
                  (bad_state_ (OpPrune (mk_prune_spec Executing (MaxLength 5) (Only [default_executor])))
                    (bad_state_ (OpUpdate j)
                      (bad_state_ (OpQuery (QIdEquals id)) (Fin true))))))))))))).

(** * rexecutor-sqlx/src/backend.rs *)

(** 219-222: [load_job_mark_as_executing_for_executor(MockJob::EXECUTOR).await.unwrap()]. *)
Definition load_ (k : option job -> prog) : prog :=
  Call (OpLoad default_executor) (fun r => match r with RJob (Ok j) => k j | _ => Fin false end).
(** 234-241: [.expect("Should return a job")] and the two assertions. *)
Definition loads_ (id : Z) : prog :=
  load_ (fun j =>
    match j with
    | Some j => check (j_id j =? id) (check (status_eqb (j_status j) Executing) (Fin true))
    | None => Fin false
    end).
(** [Utc::now() - TimeDelta::hours(3)], 298, 318. *)
Definition three_hours_ago (k : time -> prog) : prog := Now (fun now => shift (dt_sub now (3 * an_hour)) k).
(** 275-278 and the like. *)
Definition oh_dear : exec_error := mk_exec_error EPanic "Oh dear"%string.

(** 215-224. *)
Definition own_load_none : prog := load_ (fun j => check (is_none j) (Fin true)).
(** 226-242. *)
Definition own_load_ready : prog := mock_job (fun e => enqueue_ e loads_).
(** 245-262. *)
Definition own_load_executing : prog :=
  mock_job (fun e => enqueue_ e (fun _ =>
  load_ (fun j => check (negb (is_none j)) (load_ (fun j => check (is_none j) (Fin true)))))).
(** 265-288. *)
Definition own_load_retryable : prog :=
  mock_job (fun e => enqueue_ e (fun id => Now (fun now => ok_ (OpRetryable id now oh_dear) (loads_ id)))).
(** 290-309. *)
Definition own_load_past : prog :=
  mock_job (fun e => three_hours_ago (fun t => enqueue_ (with_time t e) loads_)).
(** 311-358. *)
Definition own_load_oldest : prog :=
  mock_job (fun e => three_hours_ago (fun t => enqueue_ (with_time t e) (fun expected =>
  mock_job (fun e => enqueue_ e (fun _ =>
  mock_job (fun e => enqueue_ e (fun id => ok_ (OpComplete id)
    (mock_job (fun e => enqueue_ e (fun id => ok_ (OpDiscarded id oh_dear)
      (mock_job (fun e => enqueue_ e (fun id =>
       ok_ (OpCancelled id (mk_exec_error ECancelled "Not needed"%string)) (loads_ expected)))))))))))))).
(** 360-374; [all_jobs], 176-203, selects every row. *)
Definition own_enqueue : prog :=
  mock_job (fun e => Call (OpEnqueue e) (fun r =>
    match r with
    | RId (Ok _) => query_ (QNot (QExecutorEqual ""%string)) (fun l => check (Z.of_nat (length l) =? 1) (Fin true))
    | _ => Fin false
    end)).

(** The tests of rexecutor-sqlx/src/backend.rs, 215-374. *)
Definition sqlx_tests : list (string * prog) :=
  [("load_job_mark_as_executing_for_executor_returns_none_when_db_empty"%string, own_load_none);
   ("load_job_mark_as_executing_for_executor_returns_job_when_ready_for_execution"%string, own_load_ready);
   ("load_job_mark_as_executing_for_executor_does_not_return_executing_jobs"%string, own_load_executing);
   ("load_job_mark_as_executing_for_executor_returns_retryable_jobs"%string, own_load_retryable);
   ("load_job_mark_as_executing_for_executor_returns_job_when_job_scheduled_in_past"%string, own_load_past);
   ("load_job_mark_as_executing_for_executor_returns_oldest_scheduled_at_executable_job"%string, own_load_oldest);
   ("enqueue_test"%string, own_enqueue)].
