(** Vocabulary for the properties of workers on Postgres. *)
From Verif Require Import Base Chrono Types Query Memory MemSpec PgRow Pg PgSpec PgConc PgConcSpec PgListen.

(** The row waits for a worker. *)
Definition row_waits (r : row) : Prop := r_status r = "scheduled"%string \/ r_status r = "retryable"%string.

(** The stream has looked at the database and not looked again, and saw [seen]. *)
Definition has_seen (st : pstream) (seen : option time) : Prop :=
  match s_phase st with
  | PGot t | PTry t _ _ | PLoading t _ _ _ | PSelect t _ _ | PWait t _ _ _ => t = seen
  | PCheck | PYield _ => False
  end.

(** The events in the database. *)
Definition db_events (tr : list nevent) : list qevent :=
  flat_map (fun ev => match ev with NvDb e => [e] | _ => [] end) tr.
(** How often the job [id] was given to a worker, and how often it was made to wait again (a retry, a
    snooze or a rerun). *)
Definition times_given (id : Z) (tr : list nevent) : nat :=
  length (filter (fun ev => match ev with NvYield _ _ j => j_id j =? id | _ => false end) tr).
Definition times_freed (id : Z) (tr : list nevent) : nat :=
  length (filter (fun ev => match ev with
                            | NvDb (QvWrite _ (OpRetryable i _ _ | OpSnoozed i _ | OpRerun i) b _) => (i =? id) && (r_id b =? id)
                            | _ => false
                            end) tr).
