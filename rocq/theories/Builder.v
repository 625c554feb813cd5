(** Building job requests, uniqueness criteria and replacement policies. *)
From Verif Require Import Base Chrono Types Query Codec.

(** The associated constants of an executor, rexecutor/src/executor.rs 265-292.  [BLOCKING] (282),
    which chooses the threads an execution runs on, is left out. *)
Record exec_consts := mk_exec_consts {
  ex_name : string;
  ex_max_attempts : Z;
  ex_max_concurrency : option Z;
  ex_criteria : option criteria
}.

(** rexecutor/src/executor.rs 270-292: the constants an executor gets that sets only its name. *)
Definition exec_defaults (name : string) : exec_consts := mk_exec_consts name 5 None None.

(** rexecutor/src/job/builder.rs 152-164: [JobBuilder]; the type state [NoData]/[WithData] carries
    no data. *)
Record builder (D M : Type) := mk_builder {
  b_data : option D;
  b_metadata : option M;
  b_max_attempts : option Z;
  b_tags : list string;
  b_scheduled_at : time;
  b_priority : Z;
  b_criteria : option criteria
}.
Arguments mk_builder {D M}. Arguments b_data {D M}. Arguments b_metadata {D M}.
Arguments b_max_attempts {D M}. Arguments b_tags {D M}. Arguments b_scheduled_at {D M}.
Arguments b_priority {D M}. Arguments b_criteria {D M}.

Section Builder.
  Context {D M : Type}.

  (** builder.rs 188-204: [JobBuilder::default], the clock reading at [Executor::builder()]. *)
  Definition builder_default (now : time) : builder D M := mk_builder None None None [] now 0 None.

  (** builder.rs 215-226. *)
  Definition with_data (d : D) (b : builder D M) : builder D M :=
    mk_builder (Some d) (b_metadata b) (b_max_attempts b) (b_tags b) (b_scheduled_at b)
      (b_priority b) (b_criteria b).
  (** builder.rs 229-234. *)
  Definition with_metadata (m : M) (b : builder D M) : builder D M :=
    mk_builder (b_data b) (Some m) (b_max_attempts b) (b_tags b) (b_scheduled_at b)
      (b_priority b) (b_criteria b).
  (** builder.rs 239-244. *)
  Definition with_max_attempts (n : Z) (b : builder D M) : builder D M :=
    mk_builder (b_data b) (b_metadata b) (Some n) (b_tags b) (b_scheduled_at b)
      (b_priority b) (b_criteria b).
  (** builder.rs 250-255. *)
  Definition schedule_at (t : time) (b : builder D M) : builder D M :=
    mk_builder (b_data b) (b_metadata b) (b_max_attempts b) (b_tags b) t
      (b_priority b) (b_criteria b).
  (** builder.rs 262-267; [None] is the panic of [Utc::now() + schedule_in]. *)
  Definition schedule_in (now : time) (d : delta) (b : builder D M) : option (builder D M) :=
    match dt_add now d with
    | None => None
    | Some t =>
        Some (mk_builder (b_data b) (b_metadata b) (b_max_attempts b) (b_tags b) t
                (b_priority b) (b_criteria b))
    end.
  (** builder.rs 270-274. *)
  Definition add_tag (tag : string) (b : builder D M) : builder D M :=
    mk_builder (b_data b) (b_metadata b) (b_max_attempts b) (b_tags b ++ [tag]) (b_scheduled_at b)
      (b_priority b) (b_criteria b).
  (** builder.rs 279-282. *)
  Definition with_tags (tags : list string) (b : builder D M) : builder D M :=
    mk_builder (b_data b) (b_metadata b) (b_max_attempts b) tags (b_scheduled_at b)
      (b_priority b) (b_criteria b).
  (** builder.rs 290-295. *)
  Definition unique (c : criteria) (b : builder D M) : builder D M :=
    mk_builder (b_data b) (b_metadata b) (b_max_attempts b) (b_tags b) (b_scheduled_at b)
      (b_priority b) (Some c).
  (** builder.rs 308-310. *)
  Definition with_priority (n : Z) (b : builder D M) : builder D M :=
    mk_builder (b_data b) (b_metadata b) (b_max_attempts b) (b_tags b) (b_scheduled_at b)
      n (b_criteria b).

  (** One call in a chain of builder calls (builder.rs 212-310).  [CScheduleIn] carries the clock
      reading of its [Utc::now()]. *)
  Inductive bcall :=
  | CData (d : D)
  | CMetadata (m : M)
  | CMaxAttempts (n : Z)
  | CScheduleAt (t : time)
  | CScheduleIn (now : time) (d : delta)
  | CAddTag (tag : string)
  | CWithTags (tags : list string)
  | CUnique (c : criteria)
  | CPriority (n : Z).

  (** The method a call stands for. *)
  Definition apply_call (b : builder D M) (call : bcall) : option (builder D M) :=
    match call with
    | CData d => Some (with_data d b)
    | CMetadata m => Some (with_metadata m b)
    | CMaxAttempts n => Some (with_max_attempts n b)
    | CScheduleAt t => Some (schedule_at t b)
    | CScheduleIn now d => schedule_in now d b
    | CAddTag tag => Some (add_tag tag b)
    | CWithTags tags => Some (with_tags tags b)
    | CUnique c => Some (unique c b)
    | CPriority n => Some (with_priority n b)
    end.

  (** A chain of calls; [None] is a panic. *)
  Fixpoint apply_calls (b : builder D M) (cs : list bcall) : option (builder D M) :=
    match cs with
    | [] => Some b
    | call :: cs' => match apply_call b call with None => None | Some b' => apply_calls b' cs' end
    end.

  (** builder.rs 327-338: the request [_enqueue_to_backend] makes; [None] is a serialization
      error. *)
  Definition request (c : codec D M) (ex : exec_consts) (b : builder D M) : option enqueuable :=
    match enc_opt (enc_data c) (b_data b) with
    | None => None
    | Some data =>
        match enc_opt (enc_meta c) (b_metadata b) with
        | None => None
        | Some metadata =>
            Some {| eq_executor := ex_name ex; eq_data := data; eq_metadata := metadata;
                    eq_max_attempts :=
                      match b_max_attempts b with Some n => n | None => ex_max_attempts ex end;
                    eq_scheduled_at := b_scheduled_at b; eq_tags := b_tags b;
                    eq_priority := b_priority b;
                    eq_criteria :=
                      match b_criteria b with Some u => Some u | None => ex_criteria ex end |}
        end
    end.

  (** builder.rs 320-341: [_enqueue_to_backend]; [backend] is the backend's [enqueue] method. *)
  Definition enqueue_to {S} (c : codec D M) (ex : exec_consts) (b : builder D M)
    (backend : S -> enqueuable -> S * result Z) (s : S) : S * rres Z :=
    match request c ex b with
    | None => (s, RErr EncodeError)
    | Some e => let (s', r) := backend s e in (s', lift_backend r)
    end.
End Builder.
Arguments bcall : clear implicits.

(** * Uniqueness criteria *)

(** Rust [u64 as i64]: two's complement. *)
Definition as_i64 (z : Z) : Z := (z + 9223372036854775808) mod 18446744073709551616 - 9223372036854775808.

(** The status list every constructor starts with, uniqueness_criteria.rs 234, 500. *)
Definition default_statuses : list status := [Scheduled].

(** rexecutor/src/job/uniqueness_criteria.rs 227-236, 254-263, 281-290, 308-317, 335-344: the
    constructors of [Replace]. *)
Definition replace_scheduled_at : replace_spec := mk_replace true false false false false default_statuses.
Definition replace_data : replace_spec := mk_replace false true false false false default_statuses.
Definition replace_metadata : replace_spec := mk_replace false false true false false default_statuses.
Definition replace_priority : replace_spec := mk_replace false false false true false default_statuses.
Definition replace_max_attempts : replace_spec := mk_replace false false false false true default_statuses.

(** uniqueness_criteria.rs 363-366. *)
Definition and_scheduled_at (r : replace_spec) : replace_spec :=
  mk_replace true (rp_data r) (rp_metadata r) (rp_priority r) (rp_max_attempts r) (rp_for_statuses r).
(** uniqueness_criteria.rs 383-386. *)
Definition and_data (r : replace_spec) : replace_spec :=
  mk_replace (rp_scheduled_at r) true (rp_metadata r) (rp_priority r) (rp_max_attempts r) (rp_for_statuses r).
(** uniqueness_criteria.rs 403-406. *)
Definition and_metadata (r : replace_spec) : replace_spec :=
  mk_replace (rp_scheduled_at r) (rp_data r) true (rp_priority r) (rp_max_attempts r) (rp_for_statuses r).
(** uniqueness_criteria.rs 423-426. *)
Definition and_priority (r : replace_spec) : replace_spec :=
  mk_replace (rp_scheduled_at r) (rp_data r) (rp_metadata r) true (rp_max_attempts r) (rp_for_statuses r).
(** uniqueness_criteria.rs 443-446. *)
Definition and_max_attempts (r : replace_spec) : replace_spec :=
  mk_replace (rp_scheduled_at r) (rp_data r) (rp_metadata r) (rp_priority r) true (rp_for_statuses r).
(** uniqueness_criteria.rs 470-473. *)
Definition for_statuses (l : list status) (r : replace_spec) : replace_spec :=
  mk_replace (rp_scheduled_at r) (rp_data r) (rp_metadata r) (rp_priority r) (rp_max_attempts r) l.

(** uniqueness_criteria.rs 495-503. *)
Definition by_executor : criteria := mk_criteria None true None default_statuses DoNothing.
(** uniqueness_criteria.rs 524-532. *)
Definition within (d : delta) : criteria := mk_criteria None false (Some d) default_statuses DoNothing.
(** uniqueness_criteria.rs 550-558. *)
Definition by_statuses (l : list status) : criteria := mk_criteria None false None l DoNothing.
(** uniqueness_criteria.rs 578-587; [hash] is [fxhash::hash64] of the value, a [u64] (oracle). *)
Definition by_key (hash : Z) : criteria :=
  mk_criteria (Some (as_i64 hash)) false None default_statuses DoNothing.
(** uniqueness_criteria.rs 609-612. *)
Definition and_executor (u : criteria) : criteria :=
  mk_criteria (uc_key u) true (uc_duration u) (uc_statuses u) (uc_on_conflict u).
(** uniqueness_criteria.rs 635-638. *)
Definition and_within (d : delta) (u : criteria) : criteria :=
  mk_criteria (uc_key u) (uc_executor u) (Some d) (uc_statuses u) (uc_on_conflict u).
(** uniqueness_criteria.rs 660-663. *)
Definition and_statuses (l : list status) (u : criteria) : criteria :=
  mk_criteria (uc_key u) (uc_executor u) (uc_duration u) l (uc_on_conflict u).
(** uniqueness_criteria.rs 681-685. *)
Definition and_key (hash : Z) (u : criteria) : criteria :=
  mk_criteria (Some (as_i64 hash)) (uc_executor u) (uc_duration u) (uc_statuses u) (uc_on_conflict u).
(** uniqueness_criteria.rs 708-711. *)
Definition on_conflict (r : replace_spec) (u : criteria) : criteria :=
  mk_criteria (uc_key u) (uc_executor u) (uc_duration u) (uc_statuses u) (Replace r).
(** uniqueness_criteria.rs 734-737. *)
Definition on_conflict_do_nothing (u : criteria) : criteria :=
  mk_criteria (uc_key u) (uc_executor u) (uc_duration u) (uc_statuses u) DoNothing.

(** Expressions of type [Replace] a user can write with these methods. *)
Inductive replace_expr :=
| XScheduledAt | XData | XMetadata | XPriority | XMaxAttempts
| XAndScheduledAt (r : replace_expr) | XAndData (r : replace_expr) | XAndMetadata (r : replace_expr)
| XAndPriority (r : replace_expr) | XAndMaxAttempts (r : replace_expr)
| XForStatuses (r : replace_expr) (l : list status).
Fixpoint eval_replace (x : replace_expr) : replace_spec :=
  match x with
  | XScheduledAt => replace_scheduled_at
  | XData => replace_data
  | XMetadata => replace_metadata
  | XPriority => replace_priority
  | XMaxAttempts => replace_max_attempts
  | XAndScheduledAt r => and_scheduled_at (eval_replace r)
  | XAndData r => and_data (eval_replace r)
  | XAndMetadata r => and_metadata (eval_replace r)
  | XAndPriority r => and_priority (eval_replace r)
  | XAndMaxAttempts r => and_max_attempts (eval_replace r)
  | XForStatuses r l => for_statuses l (eval_replace r)
  end.

(** Expressions of type [UniquenessCriteria] a user can write with these methods. *)
Inductive criteria_expr :=
| XByExecutor | XWithin (d : delta) | XByStatuses (l : list status) | XByKey (hash : Z)
| XAndExecutor (u : criteria_expr) | XAndWithin (u : criteria_expr) (d : delta)
| XAndStatuses (u : criteria_expr) (l : list status) | XAndKey (u : criteria_expr) (hash : Z)
| XOnConflict (u : criteria_expr) (r : replace_spec) | XOnConflictDoNothing (u : criteria_expr).
Fixpoint eval_criteria (x : criteria_expr) : criteria :=
  match x with
  | XByExecutor => by_executor
  | XWithin d => within d
  | XByStatuses l => by_statuses l
  | XByKey h => by_key h
  | XAndExecutor u => and_executor (eval_criteria u)
  | XAndWithin u d => and_within d (eval_criteria u)
  | XAndStatuses u l => and_statuses l (eval_criteria u)
  | XAndKey u h => and_key h (eval_criteria u)
  | XOnConflict u r => on_conflict r (eval_criteria u)
  | XOnConflictDoNothing u => on_conflict_do_nothing (eval_criteria u)
  end.
