(** Endless histories, and what it means that they are fair. *)
From Verif Require Import Base Chrono Types Memory MemSpec MemConc PgRow Pg PgConc PgListen Runner App World Fleet.

Section Endless.
  Context {State Event : Type}.
  Variable step : Z -> State -> Event -> option State.

  (** States and events with their clock readings, each state following from the one before. *)
  Definition endless (st : nat -> State) (ev : nat -> Z * Event) : Prop :=
    forall n, step (fst (ev n)) (st n) (snd (ev n)) = Some (st (S n)).
  (** Some event of kind [P] can happen. *)
  Definition possible (P : Event -> Prop) (s : State) : Prop := exists now e s', P e /\ step now s e = Some s'.
  (** If events of kind [P] can happen from some time on, then some of them do happen after that. *)
  Definition just (P : Event -> Prop) (st : nat -> State) (ev : nat -> Z * Event) : Prop :=
    forall n, exists m, (n <= m)%nat /\ (P (snd (ev m)) \/ ~ possible P (st m)).
  (** Events of kind [P] happen again and again, unless there comes a time after which none can. *)
  Definition compassionate (P : Event -> Prop) (st : nat -> State) (ev : nat -> Z * Event) : Prop :=
    forall n, exists m, (n <= m)%nat /\ (P (snd (ev m)) \/ forall m', (m <= m')%nat -> ~ possible P (st m')).
  (** The clock passes every instant for good. *)
  Definition time_passes (ev : nat -> Z * Event) : Prop := forall T, exists n, forall m, (n <= m)%nat -> T <= fst (ev m).
  (** The first [n] events. *)
  Definition first (n : nat) (ev : nat -> Z * Event) : list (Z * Event) := map ev (seq 0 n).
End Endless.

(** ** Programs on in-memory backends *)
Section Worlds.
  Context {Schedule Zone : Type}.
  Notation world := (world Schedule Zone).
  Notation vev := (world_event Schedule Zone).

  (** The event is a step of task [i], other than one of its stream. *)
  Definition step_of (i : nat) (ev : vev) : Prop :=
    match ev with
    | VClose k | VStart k _ | VEnd k _ _ _ _ | VAnswer k _ | VFinish k
    | VCompute k _ _ | VWake k _ | VLeave k | VActed k _ | VRested k _ => k = i
    | _ => False
    end.
  (** The event is a step of message number [n] of worker [i]. *)
  Definition step_with (i n : nat) (ev : vev) : Prop :=
    match ev with VStart k m | VEnd k m _ _ _ | VAnswer k m => k = i /\ m = n | _ => False end.
  (** Call [c] of store [b] has returned. *)
  Definition has_returned (w : world) (b c : nat) : Prop :=
    exists s x r, nth_error (wd_stores w) b = Some s /\ nth_error (c_calls s) c = Some x /\ cl_pc x = PcDone r.
  (** A call that has begun takes another step, sooner or later, unless it has returned. *)
  Definition calls_go_on (st : nat -> world) (ev : nat -> Z * vev) : Prop :=
    forall n b s c x, nth_error (wd_stores (st n)) b = Some s -> nth_error (c_calls s) c = Some x ->
      exists m, (n <= m)%nat /\ (snd (ev m) = VRun b c \/ has_returned (st m) b c).
  (** Task [i] is a worker of executor [e] on store [b], at work and not told to stop. *)
  Definition on_duty (w : world) (i b : nat) (e : executor) : Prop :=
    exists tk wk, nth_error (pr_tasks (wd_process w)) i = Some (mk_task b tk (BWorker e wk))
      /\ w_life wk = Working /\ w_cancelled wk = false.
  (** The store is there and is not poisoned. *)
  Definition sound (w : world) (b : nat) : Prop := exists s, nth_error (wd_stores w) b = Some s /\ m_poisoned (c_mem s) = false.
  (** The jobs of executor [ex] that wait in store [b] and are scheduled for [T] or before. *)
  Definition overdue (T : time) (ex : string) (b : nat) (w : world) : list job :=
    match nth_error (wd_stores w) b with
    | Some s => filter (fun j => waitingb j && String.eqb (j_executor j) ex && (j_scheduled_at j <=? T)) (jobs_of (c_mem s))
    | None => []
    end.
End Worlds.

(** ** Processes that share a Postgres database *)
Section Fleets.
  Context {Schedule Zone : Type}.
  Notation fleet := (fleet Schedule Zone).
  Notation fev := (fleet_event Schedule Zone).

  (** The event is a step of task [g], other than one of its stream. *)
  Definition fleet_step_of (g : nat) (ev : fev) : Prop :=
    match ev with
    | FClose k | FStart k _ | FEnd k _ _ _ _ | FAnswer k _ | FFinish k
    | FCompute k _ _ | FWake k _ | FLeave k | FActed k _ | FRested k _ => k = g
    | _ => False
    end.
  (** The event is a step of message number [n] of worker [g]. *)
  Definition fleet_step_with (g n : nat) (ev : fev) : Prop :=
    match ev with FStart k m | FEnd k m _ _ _ | FAnswer k m => k = g /\ m = n | _ => False end.
  (** Call [c] has returned. *)
  Definition fleet_returned (w : fleet) (c : nat) : Prop :=
    exists o r, nth_error (q_calls (n_db (fl_net w))) c = Some (mk_qcall o (QDone r)).
  (** No call stands still for ever: sooner or later it has moved, or returned. *)
  Definition calls_move (st : nat -> fleet) : Prop :=
    forall n c x, nth_error (q_calls (n_db (fl_net (st n)))) c = Some x ->
      exists m, (n <= m)%nat /\ (nth_error (q_calls (n_db (fl_net (st m)))) c <> Some x \/ fleet_returned (st m) c).
  (** Task [g] is a worker of executor [e] on backend [b], at work and not told to stop. *)
  Definition fleet_on_duty (w : fleet) (g b : nat) (e : executor) : Prop :=
    exists tk wk, task_of g w = Some (mk_task b tk (BWorker e wk)) /\ w_life wk = Working /\ w_cancelled wk = false.
  (** The rows that wait for executor [ex] with priority [P] or one that comes before it. *)
  Definition in_line (P : Z) (ex : string) (w : fleet) : list row :=
    filter (fun r => (String.eqb (r_status r) "scheduled" || String.eqb (r_status r) "retryable")
                     && String.eqb (r_executor r) ex && (r_priority r <=? P)) (t_rows (q_tbl (n_db (fl_net w)))).
  (** The ids of these rows. *)
  Definition ids_in_line (P : Z) (ex : string) (w : fleet) : list Z := map r_id (in_line P ex w).
  (** These rows are locked by nobody but streams that look for a job. *)
  Definition left_to_streams (P : Z) (ex : string) (w : fleet) : Prop :=
    forall id x, In id (ids_in_line P ex w) -> In x (q_calls (n_db (fl_net w))) -> In id (row_locks x) -> exists ex', qc_op x = OpLoad ex'.
  (** The event is no failure of a query of stream [g] or of a stream's hand-out of a job. *)
  Definition streams_spared (g : nat) (w : fleet) (ev : fev) : Prop :=
    match ev with
    | FError k => k <> g
    | FAbort c _ => forall x ex, nth_error (q_calls (n_db (fl_net w))) c = Some x -> qc_op x <> OpLoad ex
    | _ => True
    end.
End Fleets.
