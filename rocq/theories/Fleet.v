(** Programs that share a Postgres database: any number of processes, each with the [Rexecutor] objects
    and tasks of App.v, whose streams and backend calls are those of PgListen.v.

    A step of the fleet is one step of a process, of the database and its listeners, or of a task
    together with the step of its stream that goes with it.

    Simplifications: as in World.v, others may move between the steps of a poll, and between a call
    and its first action; a process that is killed is one whose tasks are no longer advanced, its
    unfinished calls being carried out or given up ([FAbort]); an error of the connection that comes
    after the caller has its answer changes the record of the call, and nothing else. *)
From Verif Require Import Base Chrono Types Query Memory PgRow PgQuery Pg PgConc PgListen Codec Builder Runner
  Ticker Pruner App World.

Section Fleet.
  (** The oracles of World.v, and [unique_identifier], unique.rs 19-27. *)
  Context {Schedule Zone : Type}.
  Variable utc : Zone.
  Variable upcoming : Schedule -> Zone -> time -> option time.
  Variable show_duration : Z -> string.
  Variable hash : forall e : executor, xe_data e -> Z.
  Variable ident : option Z -> option string -> list status -> Z.

  (** What a step does to the processes and to the rest, for the theorems. *)
  Inductive deed := OnNode (q : nat) (ev : app_event Schedule Zone) | OnNet (l : nlabel).

  (** The fleet: the database with its listeners and streams; for each backend object
      ([RexecutorPgBackend], a client of PgListen.v) the process it is in; the processes; for each task,
      numbered across the fleet, its process and its number there; the number of its stream, if it is a
      worker (runner.rs 45); the calls made by tasks, oldest first ([ak_task] is the number across the
      fleet); and what has happened so far, oldest first. *)
  Record fleet := mk_fleet {
    fl_net : nstate;
    fl_homes : list nat;
    fl_nodes : list (process Schedule Zone);
    fl_places : list (nat * nat);
    fl_streams : list (option nat);
    fl_asks : list ask;
    fl_log : list (time * deed)
  }.
  (** The database as it is found, rexecutor-sqlx/src/lib.rs 67-71; no process runs. *)
  Definition fleet_init (t : tbl) : fleet := mk_fleet (n_found t) [] [] [] [] [] [].

  (** What can happen, each with a clock reading: a process starts; it connects (rexecutor-sqlx
      lib.rs 67-102); it makes a call of lib.rs; some program calls an operation of a backend; a
      call advances, or fails; a listener is given an announcement, or its connection breaks, for a
      while or for good; the stream of a worker is polled, receives a message, or its query fails;
      the steps of a worker ([worker_event]) and of a loop ([tick_event]). *)
  Inductive fleet_event :=
  | FNode
  | FOpen (q : nat)
  | FApp (q : nat) (ev : app_event Schedule Zone)
  | FCall (o : mop)
  | FRun (i pick : nat)
  | FAbort (i : nat) (e : backend_error)
  | FDeliver (c : nat)
  | FLost (c : nat)
  | FClosed (c : nat)
  | FPoll (g : nat)
  | FRecv (g : nat)
  | FError (g : nat)
  | FClose (g : nat)
  | FStart (g n : nat)
  | FEnd (g n : nat) (now1 now2 : time) (o : outcome)
  | FAnswer (g n : nat)
  | FFinish (g : nat)
  | FCompute (g : nat) (c0 c1 : time)
  | FWake (g : nat) (c : time)
  | FLeave (g : nat)
  | FActed (g : nat) (c : time)
  | FRested (g : nat) (c : time).

  (** A step of process [q]. *)
  Definition on_node (now : time) (q : nat) (ev : app_event Schedule Zone) (w : fleet) : option fleet :=
    match nth_error (fl_nodes w) q with
    | Some s =>
        match app_step utc upcoming show_duration now s ev with
        | Some (s', _) =>
            Some (mk_fleet (fl_net w) (fl_homes w) (set_nth q s' (fl_nodes w)) (fl_places w) (fl_streams w)
                    (fl_asks w) (fl_log w ++ [(now, OnNode q ev)]))
        | None => None
        end
    | None => None
    end.

  (** A step of the database, a listener or a stream. *)
  Definition on_net (now : time) (l : nlabel) (w : fleet) : fleet :=
    mk_fleet (fst (nstep ident (fl_net w) l)) (fl_homes w) (fl_nodes w) (fl_places w) (fl_streams w)
      (fl_asks w) (fl_log w ++ [(now, OnNet l)]).

  (** Task [g]. *)
  Definition task_of (g : nat) (w : fleet) : option (task Schedule Zone) :=
    match nth_error (fl_places w) g with
    | Some (q, i) => match nth_error (fl_nodes w) q with Some s => nth_error (pr_tasks s) i | None => None end
    | None => None
    end.
  (** A step of task [g], a worker's or a loop's. *)
  Definition on_worker (now : time) (g : nat) (e : worker_event) (w : fleet) : option fleet :=
    match nth_error (fl_places w) g with Some (q, i) => on_node now q (AWorker i e) w | None => None end.
  Definition on_tick (now : time) (g : nat) (e : tick_event) (w : fleet) : option fleet :=
    match nth_error (fl_places w) g with Some (q, i) => on_node now q (ATick i e) w | None => None end.

  (** Task [g] makes call [o] in its turn [n]. *)
  Definition fleet_ask (now : time) (g n : nat) (o : mop) (w : fleet) : fleet :=
    let w' := on_net now (NDb (QCall o)) w in
    mk_fleet (fl_net w') (fl_homes w') (fl_nodes w') (fl_places w') (fl_streams w')
      (fl_asks w' ++ [mk_ask g n (length (q_calls (n_db (fl_net w))))]) (fl_log w').

  (** runner.rs 45-47: a new worker subscribes to the jobs of its executor, on the backend of its
      [Rexecutor].  Task [i] of process [q] gets the next number. *)
  Definition enlist (now : time) (q i : nat) (t : task Schedule Zone) (w : fleet) : fleet :=
    match ta_body t with
    | BWorker e _ =>
        let w' := on_net now (NSubscribe (ta_backend t) (ex_name (xe_consts e))) w in
        mk_fleet (fl_net w') (fl_homes w') (fl_nodes w') (fl_places w' ++ [(q, i)])
          (fl_streams w' ++ [Some (length (n_streams (fl_net w)))]) (fl_asks w') (fl_log w')
    | _ =>
        mk_fleet (fl_net w) (fl_homes w) (fl_nodes w) (fl_places w ++ [(q, i)]) (fl_streams w ++ [None])
          (fl_asks w) (fl_log w)
    end.
  Fixpoint enlist_all (now : time) (q i : nat) (l : list (task Schedule Zone)) (w : fleet) : fleet :=
    match l with
    | [] => w
    | t :: l' => enlist_all now q (S i) l' (enlist now q i t w)
    end.

  (** How many tasks process [q] has; those it has from number [n] on. *)
  Definition tasks_of (q : nat) (w : fleet) : list (task Schedule Zone) :=
    match nth_error (fl_nodes w) q with Some s => pr_tasks s | None => [] end.

  (** A call of lib.rs in process [q]; [Rexecutor::new] needs a backend of this process.  The steps of
      tasks are separate events. *)
  Definition fleet_app (now : time) (q : nat) (ev : app_event Schedule Zone) (w : fleet) : option fleet :=
    match ev with
    | AWorker _ _ | ATick _ _ => None
    | ANew c =>
        match nth_error (fl_homes w) c with
        | Some q' => if Nat.eqb q' q then on_node now q ev w else None
        | None => None
        end
    | _ =>
        match on_node now q ev w with
        | Some w' =>
            let n := length (tasks_of q w) in Some (enlist_all now q n (skipn n (tasks_of q w')) w')
        | None => None
        end
    end.

  (** Some program calls an operation; loading is not public. *)
  Definition fleet_call (now : time) (o : mop) (w : fleet) : option fleet :=
    match o with
    | OpLoad _ | OpSubscribe _ => None
    | _ => Some (on_net now (NDb (QCall o)) w)
    end.

  (** The stream of worker [g], if it may be polled now (runner.rs 46-48). *)
  Definition polled (g : nat) (w : fleet) : option nat :=
    match task_of g w, nth_error (fl_streams w) g with
    | Some t, Some (Some k) =>
        match ta_body t with BWorker e wk => if polls e wk then Some k else None | _ => None end
    | _, _ => None
    end.
  (** Where stream [k] stands. *)
  Definition phase_of (k : nat) (w : fleet) : option pphase := option_map s_phase (nth_error (n_streams (fl_net w)) k).

  (** A poll of the stream of worker [g] gets one step further; an item it yields is taken at once
      (stream.rs 18-48; runner.rs 46-50). *)
  Definition fleet_poll (now : time) (g : nat) (w : fleet) : option fleet :=
    match polled g w with
    | Some k =>
        let w' := on_net now (NStream k now) w in
        match phase_of k w' with
        | Some (PYield (Ok j)) => on_worker now g (WTake (MJob j)) w'
        | Some (PYield (Err e)) => on_worker now g (WTake (MError e)) w'
        | _ => Some w'
        end
    | None => None
    end.
  (** It is woken by a message (stream.rs 43). *)
  Definition fleet_recv (now : time) (g : nat) (w : fleet) : option fleet :=
    match polled g w with Some k => Some (on_net now (NRecv k) w) | None => None end.
  (** Its query fails (stream.rs 21-24). *)
  Definition fleet_error (now : time) (g : nat) (w : fleet) : option fleet :=
    match polled g w with
    | Some k =>
        match phase_of k w with
        | Some PCheck => on_worker now g (WTake (MError BadState)) (on_net now (NError k) w)
        | _ => None
        end
    | None => None
    end.

  (** The execution of message [n] of worker [g] has ended: the backend is called (runner.rs 105-125,
      146-160). *)
  Definition fleet_end (now : time) (g n : nat) (now1 now2 : time) (o : outcome) (w : fleet) : option fleet :=
    match on_worker now g (WEnd n now1 now2 o) w with
    | Some w' =>
        match task_of g w' with
        | Some t =>
            match ta_body t with
            | BWorker _ wk =>
                match flight_of n (w_flights wk) with
                | Some (FReporting op) => Some (fleet_ask now g n op w')
                | _ => Some w'
                end
            | _ => Some w'
            end
        | None => None
        end
    | None => None
    end.

  (** Where the calls of turn [n] of task [g] stand. *)
  Definition answers (g n : nat) (w : fleet) : list (option qpc) :=
    map (fun a => option_map qc_pc (nth_error (q_calls (n_db (fl_net w))) (ak_call a)))
      (filter (fun a => Nat.eqb (ak_task a) g && Nat.eqb (ak_turn a) n) (fl_asks w)).

  (** The backend has answered the report for message [n] of worker [g]. *)
  Definition fleet_answer (now : time) (g n : nat) (w : fleet) : option fleet :=
    match answers g n w with
    | [Some (QDone (RUnit r))] => on_worker now g (WReported n r) w
    | _ => None
    end.

  (** A loop wakes and acts: its calls are made in order (cron_runner.rs 76-91, pruner/runner.rs 56-61). *)
  Definition fleet_wake (now : time) (g : nat) (c : time) (w : fleet) : option fleet :=
    match on_tick now g (Wake c) w with
    | Some w' =>
        match task_of g w' with
        | Some t =>
            match firings (ta_body t) with
            | (c', next) :: _ =>
                Some (fold_left (fun w o => fleet_ask now g (length (firings (ta_body t))) o w)
                        (deeds hash (ta_body t) c' next) w')
            | [] => Some w'
            end
        | None => None
        end
    | None => None
    end.

  (** The call has returned; it has panicked. *)
  Definition answered (r : option qpc) : bool := match r with Some (QDone _) => true | _ => false end.
  Definition panics (r : option qpc) : bool :=
    match r with Some (QDone (RId Panic | RUnit Panic)) => true | _ => false end.

  (** A loop comes back from its action (cron_runner.rs 76-91, pruner/runner.rs 56-67), as in World.v. *)
  Definition fleet_acted (now : time) (g : nat) (c : time) (w : fleet) : option fleet :=
    match task_of g w with
    | Some t =>
        let rs := answers g (length (firings (ta_body t))) w in
        if existsb panics rs then on_tick now g (Acted c true) w
        else if forallb answered rs then on_tick now g (Acted c false) w
        else None
    | None => None
    end.

  (** One event. *)
  Definition fleet_step (now : time) (w : fleet) (ev : fleet_event) : option fleet :=
    match ev with
    | FNode =>
        Some (mk_fleet (fl_net w) (fl_homes w) (fl_nodes w ++ [process_init]) (fl_places w) (fl_streams w)
                (fl_asks w) (fl_log w))
    | FOpen q =>
        if Nat.ltb q (length (fl_nodes w)) then
          let w' := on_net now NOpen w in
          Some (mk_fleet (fl_net w') (fl_homes w' ++ [q]) (fl_nodes w') (fl_places w') (fl_streams w')
                  (fl_asks w') (fl_log w'))
        else None
    | FApp q ev => fleet_app now q ev w
    | FCall o => fleet_call now o w
    | FRun i pick => Some (on_net now (NDb (QRun i now pick)) w)
    | FAbort i e => Some (on_net now (NDb (QAbort i e)) w)
    | FDeliver c => Some (on_net now (NDeliver c) w)
    | FLost c => Some (on_net now (NLost c) w)
    | FClosed c => Some (on_net now (NClosed c) w)
    | FPoll g => fleet_poll now g w
    | FRecv g => fleet_recv now g w
    | FError g => fleet_error now g w
    | FClose g => on_worker now g WClose w
    | FStart g n => on_worker now g (WStart n) w
    | FEnd g n now1 now2 o => fleet_end now g n now1 now2 o w
    | FAnswer g n => fleet_answer now g n w
    | FFinish g => on_worker now g WFinish w
    | FCompute g c0 c1 => on_tick now g (Compute c0 c1) w
    | FWake g c => fleet_wake now g c w
    | FLeave g => on_tick now g Cancel w
    | FActed g c => fleet_acted now g c w
    | FRested g c => on_tick now g (Rested c) w
    end.

  (** A history. *)
  Fixpoint fleet_run (w : fleet) (es : list (time * fleet_event)) : option fleet :=
    match es with
    | [] => Some w
    | (now, ev) :: es' => match fleet_step now w ev with Some w' => fleet_run w' es' | None => None end
    end.
End Fleet.
Arguments deed : clear implicits. Arguments fleet : clear implicits. Arguments fleet_event : clear implicits.
