(** Data carried by jobs, requests, criteria, errors and prune specifications. *)
From Verif Require Import Base Chrono.

(** serde_json [Value].  Numbers are integers only (floats are not modelled); an object is its
    list of entries in key order (serde_json's default map is a [BTreeMap]). *)
Inductive json :=
| JNull
| JBool (b : bool)
| JNum (n : Z)
| JStr (s : string)
| JArr (l : list json)
| JObj (l : list (string * json)).

(** serde_json [PartialEq for Value], used at rexecutor/src/backend/queryable.rs 21-22. *)
Fixpoint json_eqb (a b : json) {struct a} : bool :=
  match a, b with
  | JNull, JNull => true
  | JBool x, JBool y => Bool.eqb x y
  | JNum x, JNum y => x =? y
  | JStr x, JStr y => String.eqb x y
  | JArr xs, JArr ys =>
      (fix go (xs ys : list json) : bool :=
         match xs, ys with
         | [], [] => true
         | x :: xs', y :: ys' => json_eqb x y && go xs' ys'
         | _, _ => false
         end) xs ys
  | JObj xs, JObj ys =>
      (fix go (xs ys : list (string * json)) : bool :=
         match xs, ys with
         | [], [] => true
         | (k, x) :: xs', (k', y) :: ys' => String.eqb k k' && json_eqb x y && go xs' ys'
         | _, _ => false
         end) xs ys
  | _, _ => false
  end.

(** rexecutor/src/job.rs 148-171: [JobStatus]. *)
Inductive status := Complete | Executing | Scheduled | Retryable | Cancelled | Discarded.

(** Derived [PartialEq for JobStatus], rexecutor/src/job.rs 147. *)
Definition status_eqb (a b : status) : bool :=
  match a, b with
  | Complete, Complete | Executing, Executing | Scheduled, Scheduled
  | Retryable, Retryable | Cancelled, Cancelled | Discarded, Discarded => true
  | _, _ => false
  end.

(** Rust [slice.contains(&status)]. *)
Definition status_mem (s : status) (l : list status) : bool := existsb (status_eqb s) l.

(** rexecutor/src/job.rs 175-182: [JobStatus::ALL]. *)
Definition status_all : list status :=
  [Complete; Executing; Scheduled; Retryable; Cancelled; Discarded].

(** rexecutor/src/job.rs 199-217: [ErrorType]. *)
Inductive error_type := EPanic | ETimeout | ECancelled | EOther (s : string).

(** rexecutor/src/job.rs 186-196: [JobError]. *)
Record job_error := mk_job_error {
  je_attempt : Z;
  je_type : error_type;
  je_details : string;
  je_recorded_at : time
}.

(** rexecutor/src/backend.rs 188-193: [ExecutionError]. *)
Record exec_error := mk_exec_error {
  ee_type : error_type;
  ee_message : string
}.

(** rexecutor/src/backend.rs 232-275: [backend::Job]. *)
Record job := mk_job {
  j_id : Z;
  j_status : status;
  j_executor : string;
  j_data : json;
  j_metadata : json;
  j_attempt : Z;
  j_max_attempts : Z;
  j_priority : Z;
  j_tags : list string;
  j_errors : list job_error;
  j_inserted_at : time;
  j_scheduled_at : time;
  j_attempted_at : option time;
  j_completed_at : option time;
  j_cancelled_at : option time;
  j_discarded_at : option time
}.

(** Assignment to field [status] of [backend::Job], rexecutor/src/backend.rs 236. *)
Definition set_status (v : status) (j : job) : job :=
  {| j_id := j_id j; j_status := v; j_executor := j_executor j;
     j_data := j_data j; j_metadata := j_metadata j; j_attempt := j_attempt j;
     j_max_attempts := j_max_attempts j; j_priority := j_priority j; j_tags := j_tags j;
     j_errors := j_errors j; j_inserted_at := j_inserted_at j; j_scheduled_at := j_scheduled_at j;
     j_attempted_at := j_attempted_at j; j_completed_at := j_completed_at j; j_cancelled_at := j_cancelled_at j;
     j_discarded_at := j_discarded_at j |}.
(** Assignment to field [data] of [backend::Job], rexecutor/src/backend.rs 242. *)
Definition set_data (v : json) (j : job) : job :=
  {| j_id := j_id j; j_status := j_status j; j_executor := j_executor j;
     j_data := v; j_metadata := j_metadata j; j_attempt := j_attempt j;
     j_max_attempts := j_max_attempts j; j_priority := j_priority j; j_tags := j_tags j;
     j_errors := j_errors j; j_inserted_at := j_inserted_at j; j_scheduled_at := j_scheduled_at j;
     j_attempted_at := j_attempted_at j; j_completed_at := j_completed_at j; j_cancelled_at := j_cancelled_at j;
     j_discarded_at := j_discarded_at j |}.
(** Assignment to field [metadata] of [backend::Job], rexecutor/src/backend.rs 244. *)
Definition set_metadata (v : json) (j : job) : job :=
  {| j_id := j_id j; j_status := j_status j; j_executor := j_executor j;
     j_data := j_data j; j_metadata := v; j_attempt := j_attempt j;
     j_max_attempts := j_max_attempts j; j_priority := j_priority j; j_tags := j_tags j;
     j_errors := j_errors j; j_inserted_at := j_inserted_at j; j_scheduled_at := j_scheduled_at j;
     j_attempted_at := j_attempted_at j; j_completed_at := j_completed_at j; j_cancelled_at := j_cancelled_at j;
     j_discarded_at := j_discarded_at j |}.
(** Assignment to field [attempt] of [backend::Job], rexecutor/src/backend.rs 246. *)
Definition set_attempt (v : Z) (j : job) : job :=
  {| j_id := j_id j; j_status := j_status j; j_executor := j_executor j;
     j_data := j_data j; j_metadata := j_metadata j; j_attempt := v;
     j_max_attempts := j_max_attempts j; j_priority := j_priority j; j_tags := j_tags j;
     j_errors := j_errors j; j_inserted_at := j_inserted_at j; j_scheduled_at := j_scheduled_at j;
     j_attempted_at := j_attempted_at j; j_completed_at := j_completed_at j; j_cancelled_at := j_cancelled_at j;
     j_discarded_at := j_discarded_at j |}.
(** Assignment to field [max_attempts] of [backend::Job], rexecutor/src/backend.rs 248. *)
Definition set_max_attempts (v : Z) (j : job) : job :=
  {| j_id := j_id j; j_status := j_status j; j_executor := j_executor j;
     j_data := j_data j; j_metadata := j_metadata j; j_attempt := j_attempt j;
     j_max_attempts := v; j_priority := j_priority j; j_tags := j_tags j;
     j_errors := j_errors j; j_inserted_at := j_inserted_at j; j_scheduled_at := j_scheduled_at j;
     j_attempted_at := j_attempted_at j; j_completed_at := j_completed_at j; j_cancelled_at := j_cancelled_at j;
     j_discarded_at := j_discarded_at j |}.
(** Assignment to field [priority] of [backend::Job], rexecutor/src/backend.rs 258. *)
Definition set_priority (v : Z) (j : job) : job :=
  {| j_id := j_id j; j_status := j_status j; j_executor := j_executor j;
     j_data := j_data j; j_metadata := j_metadata j; j_attempt := j_attempt j;
     j_max_attempts := j_max_attempts j; j_priority := v; j_tags := j_tags j;
     j_errors := j_errors j; j_inserted_at := j_inserted_at j; j_scheduled_at := j_scheduled_at j;
     j_attempted_at := j_attempted_at j; j_completed_at := j_completed_at j; j_cancelled_at := j_cancelled_at j;
     j_discarded_at := j_discarded_at j |}.
(** Assignment to field [errors] of [backend::Job], rexecutor/src/backend.rs 262. *)
Definition set_errors (v : list job_error) (j : job) : job :=
  {| j_id := j_id j; j_status := j_status j; j_executor := j_executor j;
     j_data := j_data j; j_metadata := j_metadata j; j_attempt := j_attempt j;
     j_max_attempts := j_max_attempts j; j_priority := j_priority j; j_tags := j_tags j;
     j_errors := v; j_inserted_at := j_inserted_at j; j_scheduled_at := j_scheduled_at j;
     j_attempted_at := j_attempted_at j; j_completed_at := j_completed_at j; j_cancelled_at := j_cancelled_at j;
     j_discarded_at := j_discarded_at j |}.
(** Assignment to field [scheduled_at] of [backend::Job], rexecutor/src/backend.rs 266. *)
Definition set_scheduled_at (v : time) (j : job) : job :=
  {| j_id := j_id j; j_status := j_status j; j_executor := j_executor j;
     j_data := j_data j; j_metadata := j_metadata j; j_attempt := j_attempt j;
     j_max_attempts := j_max_attempts j; j_priority := j_priority j; j_tags := j_tags j;
     j_errors := j_errors j; j_inserted_at := j_inserted_at j; j_scheduled_at := v;
     j_attempted_at := j_attempted_at j; j_completed_at := j_completed_at j; j_cancelled_at := j_cancelled_at j;
     j_discarded_at := j_discarded_at j |}.
(** Assignment to field [attempted_at] of [backend::Job], rexecutor/src/backend.rs 268. *)
Definition set_attempted_at (v : option time) (j : job) : job :=
  {| j_id := j_id j; j_status := j_status j; j_executor := j_executor j;
     j_data := j_data j; j_metadata := j_metadata j; j_attempt := j_attempt j;
     j_max_attempts := j_max_attempts j; j_priority := j_priority j; j_tags := j_tags j;
     j_errors := j_errors j; j_inserted_at := j_inserted_at j; j_scheduled_at := j_scheduled_at j;
     j_attempted_at := v; j_completed_at := j_completed_at j; j_cancelled_at := j_cancelled_at j;
     j_discarded_at := j_discarded_at j |}.
(** Assignment to field [completed_at] of [backend::Job], rexecutor/src/backend.rs 270. *)
Definition set_completed_at (v : option time) (j : job) : job :=
  {| j_id := j_id j; j_status := j_status j; j_executor := j_executor j;
     j_data := j_data j; j_metadata := j_metadata j; j_attempt := j_attempt j;
     j_max_attempts := j_max_attempts j; j_priority := j_priority j; j_tags := j_tags j;
     j_errors := j_errors j; j_inserted_at := j_inserted_at j; j_scheduled_at := j_scheduled_at j;
     j_attempted_at := j_attempted_at j; j_completed_at := v; j_cancelled_at := j_cancelled_at j;
     j_discarded_at := j_discarded_at j |}.
(** Assignment to field [cancelled_at] of [backend::Job], rexecutor/src/backend.rs 272. *)
Definition set_cancelled_at (v : option time) (j : job) : job :=
  {| j_id := j_id j; j_status := j_status j; j_executor := j_executor j;
     j_data := j_data j; j_metadata := j_metadata j; j_attempt := j_attempt j;
     j_max_attempts := j_max_attempts j; j_priority := j_priority j; j_tags := j_tags j;
     j_errors := j_errors j; j_inserted_at := j_inserted_at j; j_scheduled_at := j_scheduled_at j;
     j_attempted_at := j_attempted_at j; j_completed_at := j_completed_at j; j_cancelled_at := v;
     j_discarded_at := j_discarded_at j |}.
(** Assignment to field [discarded_at] of [backend::Job], rexecutor/src/backend.rs 274. *)
Definition set_discarded_at (v : option time) (j : job) : job :=
  {| j_id := j_id j; j_status := j_status j; j_executor := j_executor j;
     j_data := j_data j; j_metadata := j_metadata j; j_attempt := j_attempt j;
     j_max_attempts := j_max_attempts j; j_priority := j_priority j; j_tags := j_tags j;
     j_errors := j_errors j; j_inserted_at := j_inserted_at j; j_scheduled_at := j_scheduled_at j;
     j_attempted_at := j_attempted_at j; j_completed_at := j_completed_at j; j_cancelled_at := j_cancelled_at j;
     j_discarded_at := v |}.

(** rexecutor/src/job/uniqueness_criteria.rs 194-208: [Replace]. *)
Record replace_spec := mk_replace {
  rp_scheduled_at : bool;
  rp_data : bool;
  rp_metadata : bool;
  rp_priority : bool;
  rp_max_attempts : bool;
  rp_for_statuses : list status
}.

(** rexecutor/src/job/uniqueness_criteria.rs 133-145: [Resolution]. *)
Inductive resolution := DoNothing | Replace (r : replace_spec).

(** rexecutor/src/job/uniqueness_criteria.rs 100-120: [UniquenessCriteria]. *)
Record criteria := mk_criteria {
  uc_key : option Z;
  uc_executor : bool;
  uc_duration : option delta;
  uc_statuses : list status;
  uc_on_conflict : resolution
}.

(** rexecutor/src/backend.rs 197-228: [EnqueuableJob]; [max_attempts] and [priority] are [u16]. *)
Record enqueuable := mk_enqueuable {
  eq_executor : string;
  eq_data : json;
  eq_metadata : json;
  eq_max_attempts : Z;
  eq_scheduled_at : time;
  eq_tags : list string;
  eq_priority : Z;
  eq_criteria : option criteria
}.

(** rexecutor/src/pruner.rs 330-355: [PruneBy] and [Spec]; [PruneSpec]. *)
Inductive prune_by := MaxAge (d : delta) | MaxLength (n : Z).
Inductive spec := Except (l : list string) | Only (l : list string).
Record prune_spec := mk_prune_spec {
  ps_status : status;
  ps_by : prune_by;
  ps_executors : spec
}.
