(** The typed view of jobs: conversion between stored and typed jobs, and the operations of
    [Executor] that go through it. *)
From Verif Require Import Base Chrono Types Query.

(** rexecutor/src/lib.rs 1063-1076: [RexecutorError]; [EncodeError] carries a serde error in Rust,
    the payload is dropped. *)
Inductive rex_error :=
| BackendError (e : backend_error)
| GlobalBackendError
| EncodeError.

(** What a call of the public API does: Rust's [Result] plus an explicit value for a panic. *)
Inductive rres (A : Type) :=
| ROk (a : A)
| RErr (e : rex_error)
| RPanic.
Arguments ROk {A} a.
Arguments RErr {A} e.
Arguments RPanic {A}.

(** The [?] operator applied to a backend call, lib.rs 1066-1067 ([From<BackendError>]). *)
Definition lift_backend {A} (r : result A) : rres A :=
  match r with
  | Ok a => ROk a
  | Err e => RErr (BackendError e)
  | Panic => RPanic
  end.

(** [serde_json::to_value] and [serde_json::from_value] for an executor's [Data] and [Metadata]
    types (rexecutor/src/executor.rs 258-262); [None] is a serde error.  Oracles: nothing is assumed
    about them unless a theorem says so. *)
Record codec (D M : Type) := mk_codec {
  enc_data : D -> option json;
  dec_data : json -> option D;
  enc_meta : M -> option json;
  dec_meta : json -> option M
}.
Arguments mk_codec {D M}. Arguments enc_data {D M}. Arguments dec_data {D M}.
Arguments enc_meta {D M}. Arguments dec_meta {D M}.

(** serde's [Serialize for Option<T>] under serde_json: [None] is null, [Some] is transparent
    (used at rexecutor/src/backend.rs 375, rexecutor/src/job/builder.rs 329-330). *)
Definition enc_opt {A} (enc : A -> option json) (a : option A) : option json :=
  match a with None => Some JNull | Some x => enc x end.

(** serde's [Deserialize for Option<T>] under serde_json: null is [None], anything else is decoded
    as [T] (used at rexecutor/src/job.rs 117). *)
Definition dec_opt {A} (dec : json -> option A) (v : json) : option (option A) :=
  match v with JNull => Some None | _ => option_map Some (dec v) end.

(** rexecutor/src/job.rs 61-106: [job::Job<D, M>]; [attempt], [max_attempts], [priority] are
    [u16]. *)
Record tjob (D M : Type) := mk_tjob {
  tj_id : Z;
  tj_status : status;
  tj_executor : string;
  tj_data : D;
  tj_metadata : option M;
  tj_attempt : Z;
  tj_max_attempts : Z;
  tj_priority : Z;
  tj_tags : list string;
  tj_errors : list job_error;
  tj_inserted_at : time;
  tj_scheduled_at : time;
  tj_attempted_at : option time;
  tj_completed_at : option time;
  tj_cancelled_at : option time;
  tj_discarded_at : option time
}.
Arguments tj_id {D M}. Arguments tj_status {D M}. Arguments tj_executor {D M}.
Arguments tj_data {D M}. Arguments tj_metadata {D M}. Arguments tj_attempt {D M}.
Arguments tj_max_attempts {D M}. Arguments tj_priority {D M}. Arguments tj_tags {D M}.
Arguments tj_errors {D M}. Arguments tj_inserted_at {D M}. Arguments tj_scheduled_at {D M}.
Arguments tj_attempted_at {D M}. Arguments tj_completed_at {D M}.
Arguments tj_cancelled_at {D M}. Arguments tj_discarded_at {D M}.

(** rexecutor/src/job.rs 139-143: [Job::is_final_attempt]. *)
Definition is_final_attempt {D M} (t : tjob D M) : bool := tj_attempt t =? tj_max_attempts t.

Section Codec.
  Context {D M : Type}.
  Variable c : codec D M.

  (** rexecutor/src/job.rs 108-137: [TryFrom<backend::Job> for Job<D, M>]: data first, then
      metadata, then the three [try_into().unwrap()] in the order of the struct expression. *)
  Definition typed_of_stored (j : job) : rres (tjob D M) :=
    match dec_data c (j_data j) with
    | None => RErr EncodeError
    | Some data =>
        match dec_opt (dec_meta c) (j_metadata j) with
        | None => RErr EncodeError
        | Some metadata =>
            match try_into_u16 (j_attempt j), try_into_u16 (j_max_attempts j),
                  try_into_u16 (j_priority j) with
            | Some attempt, Some max_attempts, Some priority =>
                ROk {| tj_id := j_id j; tj_status := j_status j; tj_executor := j_executor j;
                       tj_data := data; tj_metadata := metadata; tj_attempt := attempt;
                       tj_max_attempts := max_attempts; tj_priority := priority;
                       tj_tags := j_tags j; tj_errors := j_errors j;
                       tj_inserted_at := j_inserted_at j; tj_scheduled_at := j_scheduled_at j;
                       tj_attempted_at := j_attempted_at j; tj_completed_at := j_completed_at j;
                       tj_cancelled_at := j_cancelled_at j; tj_discarded_at := j_discarded_at j |}
            | _, _, _ => RPanic
            end
        end
    end.

  (** rexecutor/src/backend.rs 366-395: [TryFrom<job::Job<D, M>> for Job]; the [u16] counters
      widen to [i32]. *)
  Definition stored_of_typed (t : tjob D M) : rres job :=
    match enc_data c (tj_data t) with
    | None => RErr EncodeError
    | Some data =>
        match enc_opt (enc_meta c) (tj_metadata t) with
        | None => RErr EncodeError
        | Some metadata =>
            ROk {| j_id := tj_id t; j_status := tj_status t; j_executor := tj_executor t;
                   j_data := data; j_metadata := metadata; j_attempt := tj_attempt t;
                   j_max_attempts := tj_max_attempts t; j_priority := tj_priority t;
                   j_tags := tj_tags t; j_errors := tj_errors t;
                   j_inserted_at := tj_inserted_at t; j_scheduled_at := tj_scheduled_at t;
                   j_attempted_at := tj_attempted_at t; j_completed_at := tj_completed_at t;
                   j_cancelled_at := tj_cancelled_at t; j_discarded_at := tj_discarded_at t |}
        end
    end.

  (** Rust's lazy [map(TryFrom::try_from).collect::<Result<Vec<_>, _>>()], executor.rs 480-482: the
      first failing conversion decides. *)
  Fixpoint typed_of_stored_all (l : list job) : rres (list (tjob D M)) :=
    match l with
    | [] => ROk []
    | j :: l' =>
        match typed_of_stored j with
        | ROk t =>
            match typed_of_stored_all l' with
            | ROk ts => ROk (t :: ts)
            | RErr e => RErr e
            | RPanic => RPanic
            end
        | RErr e => RErr e
        | RPanic => RPanic
        end
    end.

  (** rexecutor/src/executor.rs 468-483: [query_jobs_on_backend], where [backend] is the backend's
      [query] method in its current state. *)
  Definition query_jobs_on (name : string) (w : where_ D M) (backend : query -> result (list job))
    : rres (list (tjob D M)) :=
    match query_of_where (enc_data c) (enc_meta c) w with
    | None => RErr EncodeError
    | Some q =>
        match lift_backend (backend (for_executor q name)) with
        | ROk l => typed_of_stored_all l
        | RErr e => RErr e
        | RPanic => RPanic
        end
    end.

  (** rexecutor/src/executor.rs 522-534: [update_job_on_backend]; [S] is the backend's state and
      [backend] its [update_job] method. *)
  Definition update_job_on {S} (t : tjob D M) (backend : S -> job -> S * result unit) (s : S)
    : S * rres unit :=
    match stored_of_typed t with
    | ROk j => let (s', r) := backend s j in (s', lift_backend r)
    | RErr e => (s, RErr e)
    | RPanic => (s, RPanic)
    end.
End Codec.

(** rexecutor/src/job/runner.rs 298-305: a cancellation reason as execution error; [reason] is its
    [to_string()]. *)
Definition cancellation (reason : string) : exec_error := mk_exec_error ECancelled reason.

(** rexecutor/src/executor.rs 369-381: [cancel_job_on_backend]. *)
Definition cancel_job_on {S} (id : Z) (reason : string)
  (backend : S -> Z -> exec_error -> S * result unit) (s : S) : S * rres unit :=
  let (s', r) := backend s id (cancellation reason) in (s', lift_backend r).

(** rexecutor/src/executor.rs 416-422: [rerun_job_on_backend]. *)
Definition rerun_job_on {S} (id : Z) (backend : S -> Z -> S * result unit) (s : S) : S * rres unit :=
  let (s', r) := backend s id in (s', lift_backend r).
