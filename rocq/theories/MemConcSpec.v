(** Specifications used in the statements about interleaved executions. *)
From Verif Require Import Base Chrono Types Query Memory MemSpec MemConc.

(** Number of enqueue calls started. *)
Definition starts_enqueue (l : label) : bool :=
  match l with LCall (OpEnqueue _) => true | _ => false end.
Definition new_enqueues (ls : list label) : Z := Z.of_nat (length (filter starts_enqueue ls)).

(** [s] is the state after the interleaved execution [ls] of any number of calls and streams, within
    the range of job ids. *)
Definition executed (p : profile) (ls : list label) (s : cstate) : Prop :=
  s = conc_run p c_init ls /\ new_enqueues ls <= 4294967296.

(** Call number [i] is an enqueue of [e] that has returned [id]. *)
Definition returned (s : cstate) (i : nat) (e : enqueuable) (id : Z) : Prop :=
  exists drew, nth_error (c_calls s) i = Some (mk_call (OpEnqueue e) (PcDone (RId (Ok id))) drew).

(** The jobs stored by enqueues, in order. *)
Definition inserted (tr : list cevent) : list job :=
  flat_map (fun ev => match ev with EvInsert _ j => [j] | _ => [] end) tr.

(** The event gives the job with id [id] to a stream. *)
Definition hand_out_of (id : Z) (ev : cevent) : Prop :=
  match ev with EvHandOut _ j => j_id j = id | _ => False end.

(** The event takes the job with id [id] out of the waiting jobs: a hand-out, or a successful report
    that it is complete, discarded or cancelled. *)
Definition closes (id : Z) (ev : cevent) : Prop :=
  match ev with
  | EvHandOut _ j => j_id j = id
  | EvApply _ _ (OpComplete i | OpDiscarded i _ | OpCancelled i _) (RUnit (Ok _)) => i = id
  | _ => False
  end.

(** The event is a successful retry, snooze, rerun or update of the job with id [id]. *)
Definition release_of (id : Z) (ev : cevent) : Prop :=
  match ev with
  | EvApply _ _ o (RUnit (Ok _)) => releases id o
  | _ => False
  end.

(** The event is a conflicting enqueue writing back the job with id [id]. *)
Definition write_back_of (id : Z) (ev : cevent) : Prop :=
  match ev with
  | EvWriteBack _ j (Ok _) => j_id j = id
  | _ => False
  end.

(** Some call has stored a job of [ex] and is just about to send the wake-ups for it. *)
Definition about_to_notify (s : cstate) (ex : string) : Prop :=
  exists c id e, In c (c_calls s) /\ cl_pc c = PcNotify id /\ cl_op c = OpEnqueue e
    /\ eq_executor e = ex.
