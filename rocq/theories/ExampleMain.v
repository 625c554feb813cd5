(** The example program, examples/postgres/src/main.rs: its executors, what it starts, the jobs it
    enqueues and the query it ends with.  Left out: reading the environment, the logging, what is
    printed, the connection and its migrations (PgSys.v has those), and the two sleeps of [main]
    (101, 105), whose effect is that later calls read a later clock. *)
From Coq Require Import SpecFloat.
From Verif Require Import Base Chrono Types Query Memory Codec Builder Backoff GlobalBackend Runner Ticker Pruner App.
Open Scope string_scope.
Open Scope Z_scope.

(** [serde_json] for the types the example uses: [String], [()] and [u64]. *)
Definition enc_text (s : string) : option json := Some (JStr s).
Definition dec_text (v : json) : option string := match v with JStr s => Some s | _ => None end.
Definition enc_unit (u : unit) : option json := Some JNull.
Definition dec_unit (v : json) : option unit := match v with JNull => Some tt | _ => None end.
Definition enc_u64 (n : Z) : option json := Some (JNum n).
Definition dec_u64 (v : json) : option Z :=
  match v with JNum n => if (0 <=? n) && (n <? 18446744073709551616) then Some n else None | _ => None end.

(** rexecutor/src/executor.rs 307-316: [Executor::backoff] and [Executor::timeout] of an executor
    that defines neither.  [p] is the build profile and [u] what the generator gives, as in
    Backoff.v. *)
Definition default_fns (D M : Type) (p : profile) (u : Z) : executor_fns D M :=
  mk_fns (fun _ => Some None) (fun j => backoff p default_backoff (tj_attempt j) u).

(** rexecutor/src/job/runner.rs 84-160 with an [E::execute] that is known: what is reported for a
    job handed to the runner; [None] if nothing is. *)
Definition run_attempt {D M} (show : Z -> string) (c : codec D M) (fns : executor_fns D M)
  (execute : tjob D M -> outcome) (now1 now2 : time) (j : job) : option mop :=
  match typed_of_stored c j, begin_job c fns j with
  | ROk t, Spawned x => report show now1 now2 x (execute t)
  | _, _ => None
  end.

(** * The executors *)

(** main.rs 118-130: [BasicJob]. *)
Definition basic_codec : codec string string := mk_codec enc_text dec_text enc_text dec_text.
Definition basic_consts : exec_consts := mk_exec_consts "basic_job" 2 None None.
Definition basic_execute (j : tjob string string) : outcome := ODone.
Definition basic_job (p : profile) (u : Z) : executor :=
  mk_executor string string basic_codec (default_fns _ _ p u) basic_consts.

(** main.rs 132-170: [FlakyJob].  [text] is the text of the [JoinError] of its panic. *)
Definition flaky_codec : codec string unit := mk_codec enc_text dec_text enc_unit dec_unit.
Definition flaky_consts : exec_consts := mk_exec_consts "flaky_job" 1 None None.
Definition flaky_execute (text : string) (j : tjob string unit) : outcome :=
  if tj_attempt j =? 1 then OPanic (PText "Terrible things happened") text
  else if tj_attempt j =? 2 then OError (Some ("network_error", "FlakyJobError"))
  else ODone.
(** The literal [0.5] as an [f64]. *)
Definition f64_half : f64 := S754_finite false 4503599627370496 (-53).
Definition flaky_backoff : backoff_strategy := with_jitter (Relative f64_half) (bs_constant (1 * ns_per_s)).
Definition flaky_fns (p : profile) (u : Z) : executor_fns string unit :=
  mk_fns (fun _ => Some None) (fun j => backoff p flaky_backoff (tj_attempt j) u).
Definition flaky_job (p : profile) (u : Z) : executor :=
  mk_executor string unit flaky_codec (flaky_fns p u) flaky_consts.

(** main.rs 172-195: [TimeoutJob].  Whether the sleep of the execution (182) or the timer of the
    runner's timeout comes first is up to their lengths and to how promptly each fires: [late] is by
    how many nanoseconds the sleep is later to fire after its end than the timeout is (negative if
    it is sooner). *)
Definition timeout_codec : codec Z unit := mk_codec enc_u64 dec_u64 enc_unit dec_unit.
Definition timeout_consts : exec_consts := mk_exec_consts "timeout_job" 3 None None.
Definition timeout_of (j : tjob Z unit) : Z := 10 * tj_attempt j * ns_per_ms.
Definition timeout_execute (late : Z) (j : tjob Z unit) : outcome :=
  if tj_data j * ns_per_ms + late <=? timeout_of j then ODone else OElapsed.
Definition timeout_backoff : backoff_strategy :=
  with_jitter (Absolute (500 * ns_per_ms)) (bs_linear (1 * ns_per_s)).
Definition timeout_fns (p : profile) (u : Z) : executor_fns Z unit :=
  mk_fns (fun j => Some (Some (timeout_of j))) (fun j => backoff p timeout_backoff (tj_attempt j) u).
Definition timeout_job (p : profile) (u : Z) : executor :=
  mk_executor Z unit timeout_codec (timeout_fns p u) timeout_consts.

(** main.rs 197-211: [CancelledJob]. *)
Definition nothing_codec : codec unit unit := mk_codec enc_unit dec_unit enc_unit dec_unit.
Definition cancelled_consts : exec_consts := mk_exec_consts "cancel_job" 1 None None.
Definition cancelled_execute (j : tjob unit unit) : outcome := OCancel (Some "Didn't like the job").
Definition cancelled_job (p : profile) (u : Z) : executor :=
  mk_executor unit unit nothing_codec (default_fns _ _ p u) cancelled_consts.

(** main.rs 213-236: [SnoozeJob]; [JobStatus::ALL] is rexecutor/src/job.rs 175-182. *)
Definition snooze_criteria : criteria :=
  on_conflict (for_statuses [Complete; Executing; Scheduled; Retryable; Cancelled; Discarded] replace_priority)
    (and_within (60 * ns_per_s) by_executor).
Definition snooze_consts : exec_consts := mk_exec_consts "snooze_job" 1 None (Some snooze_criteria).
Definition snooze_execute (j : tjob unit unit) : outcome :=
  if num_seconds (tj_scheduled_at j - tj_inserted_at j) <? 1 then OSnooze (1 * ns_per_s) else ODone.
Definition snooze_job (p : profile) (u : Z) : executor :=
  mk_executor unit unit nothing_codec (default_fns _ _ p u) snooze_consts.

(** main.rs 238-249: [CronJob]. *)
Definition cron_codec : codec string unit := mk_codec enc_text dec_text enc_unit dec_unit.
Definition cron_consts : exec_consts := mk_exec_consts "cron_job" 1 None None.
Definition cron_execute (j : tjob string unit) : outcome := ODone.
Definition cron_job (p : profile) (u : Z) : executor :=
  mk_executor string unit cron_codec (default_fns _ _ p u) cron_consts.

(** * What [main] starts *)

(** main.rs 19-25. *)
Definition main_pruners : pruner_config :=
  with_pruners
    [max_age (2 * (86400 * ns_per_s)) Discarded; max_age (2 * (86400 * ns_per_s)) Cancelled]
    (with_pruner (except (ex_name cron_consts) (max_age (1 * (86400 * ns_per_s)) Complete))
       (with_pruner (only (ex_name cron_consts) (max_length 20 Complete)) config_new)).

(** main.rs 33-44, on backend 0; schedules are the strings they are parsed from. *)
Definition main_starts (Zone : Type) (p : profile) (u : Z) : list (app_event string Zone) :=
  [ ANew 0;
    AExecutor 0 (basic_job p u); AExecutor 0 (timeout_job p u); AExecutor 0 (cancelled_job p u);
    AExecutor 0 (snooze_job p u); AExecutor 0 (flaky_job p u);
    ACron 0 (cron_job p u) "* * * * * *" "tick"; ACron 0 (cron_job p u) "* * * * * *" "tock";
    APruner 0 "0/2 * * * * *" main_pruners; ASetGlobal 0; AGuard 0 ].

(** * The jobs [main] enqueues *)

(** A chain of builder calls and [enqueue], up to the backend: the request; [None] is a panic, of
    the chain or of [unwrap]. *)
Definition built {D M} (c : codec D M) (ex : exec_consts) (made : time) (calls : list (bcall D M))
  : option enqueuable :=
  match apply_calls (builder_default made) calls with
  | None => None
  | Some b => request c ex b
  end.

(** main.rs 46-54.  [made] is the clock at [builder()], [now] at [schedule_in]. *)
Definition first_request (made now : time) : option enqueuable :=
  built basic_codec basic_consts made
    [ CMaxAttempts 3; CWithTags ["initial_job"]; CData "First job"; CMetadata "Delayed attempt";
      CScheduleIn now (2 * ns_per_s) ].
(** main.rs 57-65. *)
Definition second_request (made : time) : option enqueuable :=
  built basic_codec basic_consts made
    [ CMaxAttempts 2; CAddTag "second_job"; CAddTag "running_again"; CData "Second job"; CPriority 2 ].
(** main.rs 68-75. *)
Definition flaky_request (made now : time) : option enqueuable :=
  built flaky_codec flaky_consts made
    [ CMaxAttempts 3; CWithTags ["flaky_job"]; CData "Flaky job"; CScheduleIn now (1 * ns_per_s) ].
(** main.rs 78-82. *)
Definition discarded_request (made : time) : option enqueuable :=
  built flaky_codec flaky_consts made [ CData "Discarded job" ].
(** main.rs 85. *)
Definition timeout_request (made : time) : option enqueuable :=
  built timeout_codec timeout_consts made [ CData 15 ].
(** main.rs 88. *)
Definition cancelled_request (made : time) : option enqueuable :=
  built nothing_codec cancelled_consts made [].
(** main.rs 91. *)
Definition snooze_request (made : time) : option enqueuable :=
  built nothing_codec snooze_consts made [].
(** main.rs 94-98. *)
Definition snooze_again_request (made : time) : option enqueuable :=
  built nothing_codec snooze_consts made [ CPriority 42 ].

(** * The end *)

(** main.rs 107-110; [None] is a panic. *)
Definition recent_basic (now : time) : option (where_ string string) :=
  match where_within_the_last now (10 * (60 * ns_per_s)) with
  | None => None
  | Some recent =>
      Some (where_and (where_and (where_and (WTagsOneOf ["second_job"; "initial_job"])
              (where_not (WStatusEqual Discarded))) (where_not (WStatusEqual Cancelled))) recent)
  end.

(** main.rs 106-115, where [backend] is the backend's [query] method: whether the program comes to
    its end, that is [unwrap] and [assert!] do not panic. *)
Definition main_ends (now : time) (backend : query -> result (list job)) : bool :=
  match recent_basic now with
  | None => false
  | Some w =>
      match query_jobs_on basic_codec (ex_name basic_consts) w backend with
      | ROk l => (2 <=? length l)%nat
      | _ => false
      end
  end.
