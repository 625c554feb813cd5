(** The schedule loop shared by the cron runner (rexecutor/src/cron_runner.rs 39-74) and the pruner
    (rexecutor/src/pruner/runner.rs 23-54): both have the same code around their action.

    Simplifications: the wall clock and the timer clock are one clock that never goes back; a sleep
    ends at or after its deadline, never before. *)
From Verif Require Import Base Chrono Types Query Memory Codec Builder.

(** Where the loop is. *)
Inductive phase :=
| Computing                                  (* top of the loop *)
| Sleeping (next : time) (until : time)      (* in the select *)
| Acting (next : time)                       (* enqueueing or pruning *)
| Resting (until : time)                     (* second sleep *)
| Stopped                                    (* loop left by cancellation *)
| Crashed.                                   (* the task has panicked *)

(** The loop: phase, latest clock reading, and the actions taken so far as (clock, instant), latest
    first. *)
Record ticker := mk_ticker { tk_phase : phase; tk_clock : time; tk_fired : list (time * time) }.

(** cron_runner.rs 44-45: entering the loop at clock [now]. *)
Definition ticker_start (now : time) : ticker := mk_ticker Computing now [].

(** What can happen: the loop computes the next instant (two clock readings), the sleep ends, the
    cancellation token fires, the action ends (normally or by panic), the second sleep ends. *)
Inductive tick_event :=
| Compute (c0 c1 : time)
| Wake (c : time)
| Cancel
| Acted (c : time) (panicked : bool)
| Rested (c : time).

(** cron_runner.rs 52-56, pruner/runner.rs 33-37: [(next - now - 10ms).to_std()] or zero. *)
Definition tick_delay (next now : time) : Z :=
  match to_std (dt_diff next now - 10 * ns_per_ms) with Some d => d | None => 0 end.

Section Ticker.
  (** [schedule.upcoming(timezone).next()] at a clock reading (cron 0.16): an oracle. *)
  Variable upcoming : time -> option time.

  Definition tick_step (s : ticker) (e : tick_event) : option ticker :=
    match tk_phase s, e with
    | Computing, Compute c0 c1 =>
        if (tk_clock s <=? c0) && (c0 <=? c1) then
          match upcoming c0 with
          | None => Some (mk_ticker Crashed c1 (tk_fired s))
          | Some next => Some (mk_ticker (Sleeping next (c1 + tick_delay next c1)) c1 (tk_fired s))
          end
        else None
    | Sleeping next until, Wake c =>
        if (tk_clock s <=? c) && (until <=? c)
        then Some (mk_ticker (Acting next) c ((c, next) :: tk_fired s))
        else None
    | Sleeping _ _, Cancel => Some (mk_ticker Stopped (tk_clock s) (tk_fired s))
    | Acting next, Acted c panicked =>
        if tk_clock s <=? c then
          if panicked then Some (mk_ticker Crashed c (tk_fired s))
          else if 0 <? dt_diff next c
               then Some (mk_ticker (Resting (c + dt_diff next c)) c (tk_fired s))
               else Some (mk_ticker Computing c (tk_fired s))
        else None
    | Resting until, Rested c =>
        if (tk_clock s <=? c) && (until <=? c)
        then Some (mk_ticker Computing c (tk_fired s)) else None
    | _, _ => None
    end.

  Fixpoint tick_run (s : ticker) (es : list tick_event) : option ticker :=
    match es with
    | [] => Some s
    | e :: es' => match tick_step s e with None => None | Some s' => tick_run s' es' end
    end.
End Ticker.

(** * The cron action, rexecutor/src/cron_runner.rs 76-91 *)

(** Lines 77-80. [hash] is [fxhash::hash64] of the data (oracle). *)
Definition cron_criteria (hash : Z) : criteria :=
  and_executor (and_key hash (and_within 0 by_executor)).

Section Cron.
  Context {D M : Type}.
  Variable c : codec D M.
  Variable ex : exec_consts.

  (** Lines 82-86, the builder; [now] is the clock reading of [E::builder()]. *)
  Definition cron_builder (data : D) (hash : Z) (now next : time) : builder D M :=
    unique (cron_criteria hash) (with_data data (schedule_at next (builder_default now))).

  (** Lines 76-91: [enqueue_job]; the result is only logged.  [backend] is the backend's [enqueue]
      method. *)
  Definition cron_enqueue {S} (data : D) (hash : Z) (now next : time)
    (backend : S -> enqueuable -> S * result Z) (s : S) : S * rres Z :=
    enqueue_to c ex (cron_builder data hash now next) backend s.
End Cron.
