(** Vocabulary for the properties of processes that share a Postgres database. *)
From Verif Require Import Base Chrono Types Query Memory MemSpec PgRow Pg PgSpec PgConc PgConcSpec PgListen Codec Builder Runner RunnerSpec
  Ticker Pruner App World WorldSpec Fleet.

(** The jobs stream [k] has given its worker, in order. *)
Definition yields (k : nat) (tr : list nevent) : list job :=
  flat_map (fun ev => match ev with NvYield k' _ j => if Nat.eqb k' k then [j] else [] | _ => [] end) tr.
(** All jobs given to workers, in order. *)
Definition yielded (tr : list nevent) : list job :=
  flat_map (fun ev => match ev with NvYield _ _ j => [j] | _ => [] end) tr.

(** The operation makes job [id] wait again. *)
Definition again (id : Z) (o : mop) : bool :=
  match o with OpRetryable i _ _ | OpSnoozed i _ | OpRerun i => i =? id | _ => false end.

(** The row waits for executor [ex]. *)
Definition waits_for (ex : string) (r : row) : Prop := (r_status r = "scheduled"%string \/ r_status r = "retryable"%string) /\ r_executor r = ex.
(** Executor [e] can run whatever waits for it. *)
Definition can_do (e : executor) (t : tbl) : Prop :=
  storable (ex_name (xe_consts e)) = true
  /\ forall r, In r (t_rows t) -> waits_for (ex_name (xe_consts e)) r ->
     exists j, represents r j /\ forall now, runnable (xe_codec e) (xe_fns e) (after_hand_out now j).
(** It has been run and completed, not before [T]. *)
Definition run_and_done (T : time) (x y : row) : Prop :=
  exists j t1 t2, T <= t1 <= t2 /\ j_scheduled_at j < pg_time t1 + 100 * ns_per_ms
    /\ represents x j /\ represents y (after_complete (pg_time t2) (after_hand_out (pg_time t1) j))
    /\ r_uniqueness_key y = r_uniqueness_key x.

Section Spec.
  Context {Schedule Zone : Type}.
  Variable hash : forall e : executor, xe_data e -> Z.
  Notation fleet := (fleet Schedule Zone).
  Notation fleet_event := (fleet_event Schedule Zone).

  (** What has happened to process [q], and to the database, the listeners and the streams. *)
  Definition node_events (q : nat) (log : list (time * deed Schedule Zone)) : list (time * app_event Schedule Zone) :=
    flat_map (fun x => match snd x with OnNode q' ev => if Nat.eqb q' q then [(fst x, ev)] else [] | _ => [] end) log.
  Definition net_labels (log : list (time * deed Schedule Zone)) : list nlabel :=
    flat_map (fun x => match snd x with OnNet l => [l] | _ => [] end) log.

  (** The calls of lib.rs that the program of process [q] makes. *)
  Definition program_of (q : nat) (es : list (time * fleet_event)) : list (time * app_event Schedule Zone) :=
    flat_map (fun x => match snd x with FApp q' ev => if Nat.eqb q' q then [(fst x, ev)] else [] | _ => [] end) es.
  (** The operations that programs call themselves. *)
  Definition called (es : list (time * fleet_event)) : list mop :=
    flat_map (fun x => match snd x with FCall o => [o] | _ => [] end) es.
  (** The processes that connect, in order. *)
  Definition connected (es : list (time * fleet_event)) : list nat :=
    flat_map (fun x => match snd x with FOpen q => [q] | _ => [] end) es.

  (** All tasks of the fleet. *)
  Definition crew (w : fleet) : list (task Schedule Zone) := flat_map (@pr_tasks Schedule Zone) (fl_nodes w).
  (** The jobs a task has taken; those it has taken and not reported on; the backend calls it has reason
      to make. *)
  Definition takings (t : task Schedule Zone) : list job := match ta_body t with BWorker _ w => jobs_taken w | _ => [] end.
  Definition holdings (t : task Schedule Zone) : list job := match ta_body t with BWorker _ w => unreported w | _ => [] end.
  Definition dues (t : task Schedule Zone) : list mop := map snd (owed hash (ta_body t)).

  (** The calls task [g] has made, with its turns, oldest first. *)
  Definition calls_by (w : fleet) (g : nat) : list (nat * option mop) :=
    map (fun a => (ak_turn a, option_map qc_op (nth_error (q_calls (n_db (fl_net w))) (ak_call a))))
      (filter (fun a => Nat.eqb (ak_task a) g) (fl_asks w)).

  (** A step of task [g], or a call going on; or Postgres ending a prune, one of several that keep rows
      from others and want more. *)
  Definition of_task (g : nat) (s : qstate) (ev : fleet_event) : Prop :=
    match ev with
    | FRun _ _ => True
    | FAbort i e => e = BadState /\ torn s i /\ exists k, k <> i /\ torn s k
    | FPoll k | FRecv k | FError k | FClose k | FStart k _ | FEnd k _ _ _ _ | FAnswer k _ | FFinish k
    | FCompute k _ _ | FWake k _ | FLeave k | FActed k _ | FRested k _ => k = g
    | _ => False
    end.
  (** The stream of worker [g] has no job, and no error, that it has not passed on. *)
  Definition empty_handed (g : nat) (w : fleet) : Prop :=
    forall k st seen read d i o res, nth_error (fl_streams w) g = Some (Some k) ->
      nth_error (n_streams (fl_net w)) k = Some st -> s_phase st = PLoading seen read d i ->
      nth_error (q_calls (n_db (fl_net w))) i = Some (mk_qcall o (QDone res)) -> res = RJob (Ok None).
End Spec.
