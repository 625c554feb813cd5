(** Backoff strategies, rexecutor/src/backoff.rs, and the default retry policy,
    rexecutor/src/executor.rs 125-132.  [None] is a panic. *)
From Coq Require Import SpecFloat.
From Verif Require Import Base Chrono.

(** Rust's [f64]: IEEE 754 binary64 with rounding to nearest even.  One NaN only. *)
Definition f64 := spec_float.

(** [i64 as f64], backoff.rs 205. *)
Definition i64_as_f64 (z : Z) : f64 := binary_normalize 53 1024 z 0 false.

(** [f64 * f64], backoff.rs 205. *)
Definition f64_mul (a b : f64) : f64 := SFmul 53 1024 a b.

(** Rust's [f64 as i64] after rounding saturates. *)
Definition clamp_i64 (z : Z) : Z := Z.max i64_min (Z.min i64_max z).

(** [x.round() as i64], backoff.rs 205: [round] rounds half-way cases away from zero; the cast
    saturates and maps NaN to 0. *)
Definition f64_round_as_i64 (x : f64) : Z :=
  match x with
  | S754_zero _ => 0
  | S754_nan => 0
  | S754_infinity s => if s then i64_min else i64_max
  | S754_finite s m e =>
      let a := match e with
               | Zneg k => (2 * Zpos m + 2 ^ Zpos k) / 2 ^ (Zpos k + 1)
               | _ => Zpos m * 2 ^ e
               end in
      clamp_i64 (if s then - a else a)
  end.

(** backoff.rs 66-68, 97-100, 139-142, 178-182 and user implementations of the trait [Strategy]
    (39-43), which are arbitrary functions of the attempt that may panic. *)
Inductive strategy :=
| Constant (delay : delta)
| Exponential (base : delta) (max : option delta)
| Linear (factor : delta) (max : option delta)
| Polynomial (factor : delta) (power : Z) (max : option delta)
| Custom (f : Z -> option delta).

(** Rust [i64::checked_pow(..).unwrap_or(i64::MAX)], backoff.rs 105-109. *)
Definition saturating_pow (b n : Z) : Z :=
  let r := b ^ n in if in_i64 r then r else i64_max.

(** backoff.rs 70-74, 102-115, 144-152, 184-192.  [attempt as i32] never changes a [u16]; the
    [i32] power panics or wraps on overflow, depending on the profile.  chrono's [TimeDelta * i32]
    is taken to panic exactly when the product is outside the range of [TimeDelta]. *)
Definition strategy_backoff (p : profile) (s : strategy) (attempt : Z) : option delta :=
  match s with
  | Constant d => Some d
  | Exponential base max =>
      let seconds := saturating_pow (num_seconds base) attempt in
      let seconds := match max with Some m => Z.min seconds (num_seconds m) | None => seconds end in
      delta_seconds seconds
  | Linear factor max =>
      match delta_mul factor attempt with
      | None => None
      | Some b => Some match max with Some m => Z.min b m | None => b end
      end
  | Polynomial factor power max =>
      match i32_arith p (attempt ^ power) with
      | None => None
      | Some k =>
          match delta_mul factor k with
          | None => None
          | Some b => Some match max with Some m => Z.min b m | None => b end
          end
      end
  | Custom f => f attempt
  end.

(** backoff.rs 195-201. *)
Inductive jitter :=
| Absolute (d : delta)
| Relative (ratio : f64).

(** backoff.rs 203-206: the number of milliseconds. *)
Definition jitter_ms (j : jitter) (value : delta) : Z :=
  match j with
  | Absolute d => num_milliseconds d
  | Relative ratio => f64_round_as_i64 (f64_mul (i64_as_f64 (num_milliseconds value)) ratio)
  end.

(** backoff.rs 207: [random_range(-ms..=ms)].  The generator is an oracle: [u] is an arbitrary
    number that the range is drawn from.  An empty range panics; so does negating [i64::MIN] with
    overflow checks, and without them the draw is [i64::MIN]. *)
Definition random_range (p : profile) (ms u : Z) : option Z :=
  if ms =? i64_min then match p with Debug => None | Release => Some i64_min end
  else if ms <? 0 then None
  else Some (- ms + u mod (2 * ms + 1)).

(** backoff.rs 203-210: [Jitter::apply_jitter]. *)
Definition apply_jitter (p : profile) (j : jitter) (value : delta) (u : Z) : option delta :=
  match random_range p (jitter_ms j value) u with
  | None => None
  | Some draw =>
      match delta_milliseconds draw with
      | None => None
      | Some d => delta_add value d
      end
  end.

(** backoff.rs 246-251. *)
Record backoff_strategy := mk_bs
  { bs_strategy : strategy; bs_jitter : option jitter; bs_offset : option delta; bs_min : delta }.

(** backoff.rs 390-397: [BackoffStrategy::new]. *)
Definition bs_new (s : strategy) : backoff_strategy := mk_bs s None None 0.

(** backoff.rs 270-303, 331-373: the constructors and [with_max]. *)
Definition bs_constant (d : delta) := bs_new (Constant d).
Definition bs_exponential (base : delta) := bs_new (Exponential base None).
Definition bs_linear (factor : delta) := bs_new (Linear factor None).
Definition bs_polynomial (factor : delta) (power : Z) := bs_new (Polynomial factor power None).
Definition with_max (m : delta) (b : backoff_strategy) : backoff_strategy :=
  mk_bs match bs_strategy b with
        | Exponential base _ => Exponential base (Some m)
        | Linear f _ => Linear f (Some m)
        | Polynomial f k _ => Polynomial f k (Some m)
        | s => s
        end (bs_jitter b) (bs_offset b) (bs_min b).

(** backoff.rs 398-417: [with_jitter], [with_min], [with_offset]. *)
Definition with_jitter (j : jitter) (b : backoff_strategy) : backoff_strategy :=
  mk_bs (bs_strategy b) (Some j) (bs_offset b) (bs_min b).
Definition with_min (m : delta) (b : backoff_strategy) : backoff_strategy :=
  mk_bs (bs_strategy b) (bs_jitter b) (bs_offset b) m.
Definition with_offset (o : delta) (b : backoff_strategy) : backoff_strategy :=
  mk_bs (bs_strategy b) (bs_jitter b) (Some o) (bs_min b).

(** backoff.rs 419-436: [BackoffStrategy::backoff]. *)
Definition backoff (p : profile) (b : backoff_strategy) (attempt u : Z) : option delta :=
  match strategy_backoff p (bs_strategy b) attempt with
  | None => None
  | Some d0 =>
      match (match bs_offset b with Some o => delta_add d0 o | None => Some d0 end) with
      | None => None
      | Some d1 =>
          match (match bs_jitter b with Some j => apply_jitter p j d1 u | None => Some d1 end) with
          | None => None
          | Some d2 => Some (Z.max d2 (bs_min b))
          end
      end
  end.

(** The literal [0.1] as an [f64]. *)
Definition f64_tenth : f64 := S754_finite false 7205759403792794 (-56).

(** executor.rs 125-132: [DEFAULT_BACKOFF_STRATEGY]. *)
Definition default_backoff : backoff_strategy :=
  with_jitter (Relative f64_tenth)
    (with_max (7 * 86400 * ns_per_s) (bs_exponential (4 * ns_per_s))).
