(** [chrono] 0.4.44 (version pinned in /repo/Cargo.lock) durations and UTC times.

    A [TimeDelta] is an integer number of nanoseconds in [delta_min, delta_max] and a
    [DateTime<Utc>] is an integer number of nanoseconds since the Unix epoch in
    [dt_min, dt_max].  Leap seconds are not modelled.  Operations that panic on overflow in
    chrono return [None] here. *)
From Verif Require Import Base.

(** A duration and a point in time, both in nanoseconds (chrono [TimeDelta], [DateTime<Utc>]). *)
Definition delta := Z.
Definition time := Z.

(** Unit constants in nanoseconds. *)
Definition ns_per_ms : Z := 1000000.
Definition ns_per_s : Z := 1000000000.

(** Rust's [i64::MAX], the bound of chrono's millisecond range and of the exponential backoff
    (rexecutor/src/backoff.rs 107). *)
Definition i64_max : Z := 9223372036854775807.
Definition i64_min : Z := -9223372036854775808.
Definition in_i64 (z : Z) : bool := (i64_min <=? z) && (z <=? i64_max).

(** chrono [TimeDelta::MAX] is [i64::MAX] milliseconds and [TimeDelta::MIN] is its negation. *)
Definition delta_max : Z := i64_max * ns_per_ms.
Definition delta_min : Z := - delta_max.
Definition in_delta (d : Z) : bool := (delta_min <=? d) && (d <=? delta_max).

(** chrono [DateTime::<Utc>::MIN_UTC] and [MAX_UTC]: years -262143 to 262142. *)
Definition dt_min : Z := -8334601228800 * ns_per_s.
Definition dt_max : Z := 8210266876799 * ns_per_s + 999999999.
Definition in_dt (t : Z) : bool := (dt_min <=? t) && (t <=? dt_max).

(** [DateTime + TimeDelta] and [DateTime - TimeDelta]: panic when out of range
    (used at rexecutor/src/backend/memory.rs 463-464, rexecutor/src/job/runner.rs 211, 257,
    rexecutor/src/job/builder.rs schedule_in). *)
Definition dt_add (t : time) (d : delta) : option time :=
  let r := t + d in if in_dt r then Some r else None.
Definition dt_sub (t : time) (d : delta) : option time :=
  let r := t - d in if in_dt r then Some r else None.

(** [DateTime - DateTime]: always representable. *)
Definition dt_diff (a b : time) : delta := a - b.

(** [TimeDelta::seconds]/[milliseconds]: panic when out of range (used at
    rexecutor/src/backoff.rs 112, 208). *)
Definition delta_seconds (s : Z) : option delta :=
  let r := s * ns_per_s in if in_delta r then Some r else None.
Definition delta_milliseconds (ms : Z) : option delta :=
  let r := ms * ns_per_ms in if in_delta r then Some r else None.

(** [TimeDelta::num_seconds]/[num_milliseconds]: truncate towards zero. *)
Definition num_seconds (d : delta) : Z := Z.quot d ns_per_s.
Definition num_milliseconds (d : delta) : Z := Z.quot d ns_per_ms.

(** [TimeDelta + TimeDelta] and [TimeDelta * i32]: panic when out of range. *)
Definition delta_add (a b : delta) : option delta :=
  let r := a + b in if in_delta r then Some r else None.
Definition delta_mul (a : delta) (k : Z) : option delta :=
  let r := a * k in if in_delta r then Some r else None.

(** [TimeDelta::to_std]: [None] for negative durations (used at
    rexecutor/src/backend/memory.rs 53). *)
Definition to_std (d : delta) : option Z := if d <? 0 then None else Some d.
