(** [fxhash] 0.2.1 (version pinned in /repo/Cargo.lock), as used by
    rexecutor-sqlx/src/unique.rs 19-27.  Rust's derived and built-in [Hash] implementations on a
    64-bit machine. *)
From Coq Require Import Ascii.
From Verif Require Import Base Types.

(** [u64] wrap-around. *)
Definition wrap_u64 (z : Z) : Z := z mod 18446744073709551616.
(** [u64::rotate_left(5)]. *)
Definition rotl5 (h : Z) : Z := Z.lor (wrap_u64 (h * 32)) (h / 576460752303423488).
(** fxhash [hash_word]: rotate, xor, multiply by the seed 0x517cc1b727220a95. *)
Definition hash_word (h w : Z) : Z := wrap_u64 (Z.lxor (rotl5 h) w * 5871781006564002453).

(** The bytes of a string. *)
Fixpoint bytes_of (s : string) : list Z :=
  match s with
  | EmptyString => []
  | String a s' => Z.of_nat (nat_of_ascii a) :: bytes_of s'
  end.
(** Little-endian value. *)
Fixpoint little_endian (l : list Z) : Z :=
  match l with [] => 0 | b :: l' => b + 256 * little_endian l' end.

(** fxhash [write64]: words of eight bytes, then one of four, then single bytes. *)
Fixpoint hash_tail (h : Z) (l : list Z) : Z :=
  match l with [] => h | b :: l' => hash_tail (hash_word h b) l' end.
Fixpoint write64 (h : Z) (l : list Z) : Z :=
  match l with
  | a :: b :: c :: d :: e :: f :: g :: i :: rest =>
      write64 (hash_word h (little_endian [a; b; c; d; e; f; g; i])) rest
  | a :: b :: c :: d :: rest => hash_tail (hash_word h (little_endian [a; b; c; d])) rest
  | _ => hash_tail h l
  end.

(** [Hash for str]: the bytes and then 0xff. *)
Definition hash_str (h : Z) (s : string) : Z := hash_word (write64 h (bytes_of s)) 255.
(** Derived [Hash for Option<i64>]: discriminant, then the value as [u64]. *)
Definition hash_option (h : Z) (k : option Z) : Z :=
  match k with
  | None => hash_word h 0
  | Some z => hash_word (hash_word h 1) (wrap_u64 z)
  end.
(** Derived [Hash for JobStatus] (rexecutor/src/job.rs 148-171): its position. *)
Definition status_index (s : status) : Z :=
  match s with
  | Complete => 0 | Executing => 1 | Scheduled => 2 | Retryable => 3 | Cancelled => 4 | Discarded => 5
  end.
(** [Hash for [T]]: the length, then the elements. *)
Definition hash_statuses (h : Z) (l : list status) : Z :=
  fold_left (fun h s => hash_word h (status_index s)) l (hash_word h (Z.of_nat (length l))).
(** [as i64]. *)
Definition as_i64 (z : Z) : Z := if z <? 9223372036854775808 then z else z - 18446744073709551616.

(** rexecutor-sqlx/src/unique.rs 19-27: [unique_identifier]; [executor] is given when the criteria
    include it. *)
Definition fx_identifier (key : option Z) (executor : option string) (statuses : list status) : Z :=
  let h := hash_option 0 key in
  let h := match executor with Some e => hash_str h e | None => h end in
  as_i64 (hash_statuses h statuses).
