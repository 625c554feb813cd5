(** Values as Postgres keeps them: text, JSON, times, statuses, error types and table rows.
    Paths are relative to /repo/rexecutor-sqlx; Postgres itself is described by its documentation
    (versions 13 to 17 agree on everything used here). *)
From Coq Require Import Ascii.
From Verif Require Import Base Chrono Types Query Memory.

(** * Text and JSON *)

(** Postgres text may not contain the zero byte (any text bound at src/lib.rs 159-461). *)
Fixpoint storable (s : string) : bool :=
  match s with
  | EmptyString => true
  | String a s' => negb (Ascii.eqb a Ascii.zero) && storable s'
  end.

(** Neither may a string inside [jsonb] (data and metadata bound at src/lib.rs 171-172, 448-449). *)
Fixpoint json_storable (v : json) : bool :=
  match v with
  | JNull | JBool _ | JNum _ => true
  | JStr s => storable s
  | JArr l => forallb json_storable l
  | JObj l => forallb (fun kv => storable (fst kv) && json_storable (snd kv)) l
  end.

(** * Times *)

(** sqlx 0.8.6 encodes [DateTime<Utc>] as whole microseconds since 2000-01-01, dropping the rest
    towards that instant; [timestamptz] starts in 4714 BC and ends after chrono's last instant. *)
Definition pg_epoch : time := 946684800 * ns_per_s.
Definition pg_time (t : time) : time := pg_epoch + 1000 * Z.quot (t - pg_epoch) 1000.
Definition pg_first : time := pg_epoch - 211813488000000000 * 1000.
(** A bound time (src/lib.rs 175, 243, 305, 333, 435, 458): [None] is the error of the server. *)
Definition bind_time (t : time) : option time :=
  if pg_first <=? pg_time t then Some (pg_time t) else None.

(** * Statuses and error types *)

(** src/types.rs 8-17: [derive(sqlx::Type)] with [rename_all = "lowercase"], and 32-43. *)
Definition label (s : status) : string :=
  match s with
  | Complete => "complete"
  | Executing => "executing"
  | Scheduled => "scheduled"
  | Retryable => "retryable"
  | Cancelled => "cancelled"
  | Discarded => "discarded"
  end.
(** Decoding of the same enum, src/types.rs 8-17, 19-30; [None] is sqlx's decode error. *)
Definition status_of_label (s : string) : option status :=
  if String.eqb s "complete" then Some Complete
  else if String.eqb s "executing" then Some Executing
  else if String.eqb s "scheduled" then Some Scheduled
  else if String.eqb s "retryable" then Some Retryable
  else if String.eqb s "cancelled" then Some Cancelled
  else if String.eqb s "discarded" then Some Discarded
  else None.
(** migrations/20240330221437_add-job-table.up.sql 4-11: the labels of [rexecutor_job_state]. *)
Definition enum_labels : list string :=
  ["scheduled"; "executing"; "retryable"; "complete"; "cancelled"; "discarded"]%string.

(** src/types.rs 118-128, 149-158: how an error type is written. *)
Definition error_text (e : error_type) : string :=
  match e with
  | EPanic => "panic"
  | ETimeout => "timeout"
  | ECancelled => "cancelled"
  | EOther s => s
  end.
(** src/types.rs 107-116, 138-147: how it is read (serde, snake case, untagged [Other] last). *)
Definition error_of_text (s : string) : error_type :=
  if String.eqb s "panic" then EPanic
  else if String.eqb s "timeout" then ETimeout
  else if String.eqb s "cancelled" then ECancelled
  else EOther s.

(** * Rows *)

(** One element of the [errors] column, the object built at src/lib.rs 295-300: the attempt is an
    SQL integer, the time is kept as text that reads back as the same instant. *)
Record stored_error := mk_stored_error {
  se_attempt : Z;
  se_type : string;
  se_details : string;
  se_recorded_at : time
}.

(** migrations/20240330221437_add-job-table.up.sql 16-35.  [attempted_by] is never used by the
    code; [metadata] is nullable but the code never writes a null. *)
Record row := mk_row {
  r_id : Z;
  r_status : string;
  r_executor : string;
  r_data : json;
  r_errors : list stored_error;
  r_attempt : Z;
  r_max_attempts : Z;
  r_tags : list string;
  r_metadata : json;
  r_priority : Z;
  r_uniqueness_key : option Z;
  r_inserted_at : time;
  r_scheduled_at : time;
  r_attempted_at : option time;
  r_completed_at : option time;
  r_cancelled_at : option time;
  r_discarded_at : option time
}.

(** [SET status = v], column of add-job-table.up.sql 18. *)
Definition put_status (v : string) (r : row) : row :=
  {| r_id := r_id r; r_status := v; r_executor := r_executor r; r_data := r_data r;
     r_errors := r_errors r; r_attempt := r_attempt r; r_max_attempts := r_max_attempts r; r_tags := r_tags r;
     r_metadata := r_metadata r; r_priority := r_priority r; r_uniqueness_key := r_uniqueness_key r; r_inserted_at := r_inserted_at r;
     r_scheduled_at := r_scheduled_at r; r_attempted_at := r_attempted_at r; r_completed_at := r_completed_at r; r_cancelled_at := r_cancelled_at r;
     r_discarded_at := r_discarded_at r |}.
(** [SET data = v], column of add-job-table.up.sql 20. *)
Definition put_data (v : json) (r : row) : row :=
  {| r_id := r_id r; r_status := r_status r; r_executor := r_executor r; r_data := v;
     r_errors := r_errors r; r_attempt := r_attempt r; r_max_attempts := r_max_attempts r; r_tags := r_tags r;
     r_metadata := r_metadata r; r_priority := r_priority r; r_uniqueness_key := r_uniqueness_key r; r_inserted_at := r_inserted_at r;
     r_scheduled_at := r_scheduled_at r; r_attempted_at := r_attempted_at r; r_completed_at := r_completed_at r; r_cancelled_at := r_cancelled_at r;
     r_discarded_at := r_discarded_at r |}.
(** [SET errors = v], column of add-job-table.up.sql 21. *)
Definition put_errors (v : list stored_error) (r : row) : row :=
  {| r_id := r_id r; r_status := r_status r; r_executor := r_executor r; r_data := r_data r;
     r_errors := v; r_attempt := r_attempt r; r_max_attempts := r_max_attempts r; r_tags := r_tags r;
     r_metadata := r_metadata r; r_priority := r_priority r; r_uniqueness_key := r_uniqueness_key r; r_inserted_at := r_inserted_at r;
     r_scheduled_at := r_scheduled_at r; r_attempted_at := r_attempted_at r; r_completed_at := r_completed_at r; r_cancelled_at := r_cancelled_at r;
     r_discarded_at := r_discarded_at r |}.
(** [SET attempt = v], column of add-job-table.up.sql 22. *)
Definition put_attempt (v : Z) (r : row) : row :=
  {| r_id := r_id r; r_status := r_status r; r_executor := r_executor r; r_data := r_data r;
     r_errors := r_errors r; r_attempt := v; r_max_attempts := r_max_attempts r; r_tags := r_tags r;
     r_metadata := r_metadata r; r_priority := r_priority r; r_uniqueness_key := r_uniqueness_key r; r_inserted_at := r_inserted_at r;
     r_scheduled_at := r_scheduled_at r; r_attempted_at := r_attempted_at r; r_completed_at := r_completed_at r; r_cancelled_at := r_cancelled_at r;
     r_discarded_at := r_discarded_at r |}.
(** [SET max_attempts = v], column of add-job-table.up.sql 23. *)
Definition put_max_attempts (v : Z) (r : row) : row :=
  {| r_id := r_id r; r_status := r_status r; r_executor := r_executor r; r_data := r_data r;
     r_errors := r_errors r; r_attempt := r_attempt r; r_max_attempts := v; r_tags := r_tags r;
     r_metadata := r_metadata r; r_priority := r_priority r; r_uniqueness_key := r_uniqueness_key r; r_inserted_at := r_inserted_at r;
     r_scheduled_at := r_scheduled_at r; r_attempted_at := r_attempted_at r; r_completed_at := r_completed_at r; r_cancelled_at := r_cancelled_at r;
     r_discarded_at := r_discarded_at r |}.
(** [SET tags = v], column of add-job-table.up.sql 25. *)
Definition put_tags (v : list string) (r : row) : row :=
  {| r_id := r_id r; r_status := r_status r; r_executor := r_executor r; r_data := r_data r;
     r_errors := r_errors r; r_attempt := r_attempt r; r_max_attempts := r_max_attempts r; r_tags := v;
     r_metadata := r_metadata r; r_priority := r_priority r; r_uniqueness_key := r_uniqueness_key r; r_inserted_at := r_inserted_at r;
     r_scheduled_at := r_scheduled_at r; r_attempted_at := r_attempted_at r; r_completed_at := r_completed_at r; r_cancelled_at := r_cancelled_at r;
     r_discarded_at := r_discarded_at r |}.
(** [SET metadata = v], column of add-job-table.up.sql 26. *)
Definition put_metadata (v : json) (r : row) : row :=
  {| r_id := r_id r; r_status := r_status r; r_executor := r_executor r; r_data := r_data r;
     r_errors := r_errors r; r_attempt := r_attempt r; r_max_attempts := r_max_attempts r; r_tags := r_tags r;
     r_metadata := v; r_priority := r_priority r; r_uniqueness_key := r_uniqueness_key r; r_inserted_at := r_inserted_at r;
     r_scheduled_at := r_scheduled_at r; r_attempted_at := r_attempted_at r; r_completed_at := r_completed_at r; r_cancelled_at := r_cancelled_at r;
     r_discarded_at := r_discarded_at r |}.
(** [SET priority = v], column of add-job-table.up.sql 27. *)
Definition put_priority (v : Z) (r : row) : row :=
  {| r_id := r_id r; r_status := r_status r; r_executor := r_executor r; r_data := r_data r;
     r_errors := r_errors r; r_attempt := r_attempt r; r_max_attempts := r_max_attempts r; r_tags := r_tags r;
     r_metadata := r_metadata r; r_priority := v; r_uniqueness_key := r_uniqueness_key r; r_inserted_at := r_inserted_at r;
     r_scheduled_at := r_scheduled_at r; r_attempted_at := r_attempted_at r; r_completed_at := r_completed_at r; r_cancelled_at := r_cancelled_at r;
     r_discarded_at := r_discarded_at r |}.
(** [SET scheduled_at = v], column of add-job-table.up.sql 30. *)
Definition put_scheduled_at (v : time) (r : row) : row :=
  {| r_id := r_id r; r_status := r_status r; r_executor := r_executor r; r_data := r_data r;
     r_errors := r_errors r; r_attempt := r_attempt r; r_max_attempts := r_max_attempts r; r_tags := r_tags r;
     r_metadata := r_metadata r; r_priority := r_priority r; r_uniqueness_key := r_uniqueness_key r; r_inserted_at := r_inserted_at r;
     r_scheduled_at := v; r_attempted_at := r_attempted_at r; r_completed_at := r_completed_at r; r_cancelled_at := r_cancelled_at r;
     r_discarded_at := r_discarded_at r |}.
(** [SET attempted_at = v], column of add-job-table.up.sql 31. *)
Definition put_attempted_at (v : option time) (r : row) : row :=
  {| r_id := r_id r; r_status := r_status r; r_executor := r_executor r; r_data := r_data r;
     r_errors := r_errors r; r_attempt := r_attempt r; r_max_attempts := r_max_attempts r; r_tags := r_tags r;
     r_metadata := r_metadata r; r_priority := r_priority r; r_uniqueness_key := r_uniqueness_key r; r_inserted_at := r_inserted_at r;
     r_scheduled_at := r_scheduled_at r; r_attempted_at := v; r_completed_at := r_completed_at r; r_cancelled_at := r_cancelled_at r;
     r_discarded_at := r_discarded_at r |}.
(** [SET completed_at = v], column of add-job-table.up.sql 32. *)
Definition put_completed_at (v : option time) (r : row) : row :=
  {| r_id := r_id r; r_status := r_status r; r_executor := r_executor r; r_data := r_data r;
     r_errors := r_errors r; r_attempt := r_attempt r; r_max_attempts := r_max_attempts r; r_tags := r_tags r;
     r_metadata := r_metadata r; r_priority := r_priority r; r_uniqueness_key := r_uniqueness_key r; r_inserted_at := r_inserted_at r;
     r_scheduled_at := r_scheduled_at r; r_attempted_at := r_attempted_at r; r_completed_at := v; r_cancelled_at := r_cancelled_at r;
     r_discarded_at := r_discarded_at r |}.
(** [SET cancelled_at = v], column of add-job-table.up.sql 33. *)
Definition put_cancelled_at (v : option time) (r : row) : row :=
  {| r_id := r_id r; r_status := r_status r; r_executor := r_executor r; r_data := r_data r;
     r_errors := r_errors r; r_attempt := r_attempt r; r_max_attempts := r_max_attempts r; r_tags := r_tags r;
     r_metadata := r_metadata r; r_priority := r_priority r; r_uniqueness_key := r_uniqueness_key r; r_inserted_at := r_inserted_at r;
     r_scheduled_at := r_scheduled_at r; r_attempted_at := r_attempted_at r; r_completed_at := r_completed_at r; r_cancelled_at := v;
     r_discarded_at := r_discarded_at r |}.
(** [SET discarded_at = v], column of add-job-table.up.sql 34. *)
Definition put_discarded_at (v : option time) (r : row) : row :=
  {| r_id := r_id r; r_status := r_status r; r_executor := r_executor r; r_data := r_data r;
     r_errors := r_errors r; r_attempt := r_attempt r; r_max_attempts := r_max_attempts r; r_tags := r_tags r;
     r_metadata := r_metadata r; r_priority := r_priority r; r_uniqueness_key := r_uniqueness_key r; r_inserted_at := r_inserted_at r;
     r_scheduled_at := r_scheduled_at r; r_attempted_at := r_attempted_at r; r_completed_at := r_completed_at r; r_cancelled_at := r_cancelled_at r;
     r_discarded_at := v |}.

(** src/types.rs 99-105, 130-136: one stored error read back; [None] is serde's error for an attempt
    that is no [u16]. *)
Definition read_error (e : stored_error) : option job_error :=
  if in_u16 (se_attempt e)
  then Some (mk_job_error (se_attempt e) (error_of_text (se_type e)) (se_details e) (se_recorded_at e))
  else None.

(** src/types.rs 45-63 and 65-97: a row read as [types::Job] and converted to [backend::Job]. *)
Definition job_of_row (r : row) : result job :=
  match status_of_label (r_status r) with
  | None => Err BadState
  | Some st =>
      match collect (map read_error (r_errors r)) with
      | None => Err EncodeDecode
      | Some errors =>
          Ok {| j_id := r_id r; j_status := st; j_executor := r_executor r; j_data := r_data r;
                j_metadata := r_metadata r; j_attempt := r_attempt r; j_max_attempts := r_max_attempts r;
                j_priority := r_priority r; j_tags := r_tags r; j_errors := errors;
                j_inserted_at := r_inserted_at r; j_scheduled_at := r_scheduled_at r;
                j_attempted_at := r_attempted_at r; j_completed_at := r_completed_at r;
                j_cancelled_at := r_cancelled_at r; j_discarded_at := r_discarded_at r |}
      end
  end.
