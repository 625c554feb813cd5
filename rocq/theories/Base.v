(** Machine integers, build profiles and operation results shared by all model files. *)
From Coq Require Export String List ZArith Lia Bool.
From Coq Require Export ZifyBool ZifyNat.
Export ListNotations.
Global Open Scope Z_scope.
Global Open Scope list_scope.
Global Open Scope bool_scope.

(** rexecutor/src/backend.rs 397-412: [BackendError].  [EncodeDecode] and [Io] carry foreign error
    values in Rust; the payload is dropped. *)
Inductive backend_error :=
| EncodeDecode
| BadState
| JobNotFound (id : Z)
| Io.

(** What a call does: returns [Ok], returns [Err], or panics.  Rust's [Result] plus an explicit
    value for a panic. *)
Inductive result (A : Type) :=
| Ok (a : A)
| Err (e : backend_error)
| Panic.
Arguments Ok {A} a.
Arguments Err {A} e.
Arguments Panic {A}.

(** Cargo build profile: with overflow checks (default dev profile) an overflowing [+] panics,
    without them (default release profile) it wraps.  /repo sets neither in Cargo.toml. *)
Inductive profile := Debug | Release.

(** Ranges of the Rust integer types used by rexecutor/src/backend.rs 232-275 ([i32] counters) and
    rexecutor/src/job.rs 63-106 ([u16] counters). *)
Definition in_i32 (z : Z) : bool := (-2147483648 <=? z) && (z <=? 2147483647).
Definition in_u16 (z : Z) : bool := (0 <=? z) && (z <=? 65535).

(** Two's complement wrap to 32 bits (Rust [i32] wrapping arithmetic). *)
Definition wrap_i32 (z : Z) : Z := (z + 2147483648) mod 4294967296 - 2147483648.

(** Rust [as u16] on an [i32]: truncation modulo 2^16 (used at rexecutor/src/backend/memory.rs
    304, 310, 316). *)
Definition as_u16 (z : Z) : Z := z mod 65536.

(** Result of an [i32] operation whose mathematical value is [z]: [None] is a panic. *)
Definition i32_arith (p : profile) (z : Z) : option Z :=
  if in_i32 z then Some z
  else match p with Debug => None | Release => Some (wrap_i32 z) end.

(** Rust [i32] -> [u16] [try_into().unwrap()] (rexecutor/src/job.rs 121-125): [None] is a panic. *)
Definition try_into_u16 (z : Z) : option Z := if in_u16 z then Some z else None.
