(** A whole program on in-memory backends: the [Rexecutor] objects and tasks of App.v, whose streams
    and backend calls are those of the stores of MemConc.v.

    A step of the world is one step of the process, of a store, or of a task together with the step
    of its store that goes with it.

    Simplifications: one poll of a worker is several steps, between which other tasks may move; a
    call a task makes has begun when it is made, and others may move before it is carried out, even
    if the task has died by then.  Both only add histories: an operation of the in-memory backend
    has no await point, so that in fact nothing of the same thread comes in between. *)
From Verif Require Import Base Chrono Types Query Memory MemConc Codec Builder Runner Ticker Pruner App.

(** A backend call made by a task: the number of the task, its turn (of a worker: the number of the
    message, runner.rs 48; of a loop: how many times it has fired), and the number of the call on the
    task's store. *)
Record ask := mk_ask { ak_task : nat; ak_turn : nat; ak_call : nat }.

Section World.
  (** The oracles of App.v; [fxhash::hash64] of a cron executor's data (cron_runner.rs 79); whether
      the program is compiled with overflow checks. *)
  Context {Schedule Zone : Type}.
  Variable utc : Zone.
  Variable upcoming : Schedule -> Zone -> time -> option time.
  Variable show_duration : Z -> string.
  Variable hash : forall e : executor, xe_data e -> Z.
  Variable p : profile.

  (** What a step does to the process and to the stores, for the theorems. *)
  Inductive action := OnProcess (ev : app_event Schedule Zone) | OnStore (b : nat) (l : label).

  (** The program: the process; its in-memory backends, by number; for each task the number of its
      stream, if it is a worker (runner.rs 45); the calls made by tasks, oldest first; and what has
      happened so far, oldest first. *)
  Record world := mk_world {
    wd_process : process Schedule Zone;
    wd_stores : list cstate;
    wd_streams : list (option nat);
    wd_asks : list ask;
    wd_log : list (time * action)
  }.
  Definition world_init : world := mk_world process_init [] [] [] [].

  (** What can happen, each with a clock reading: the program makes an in-memory backend (memory.rs
      110-112), makes a call of lib.rs, or calls an operation of a backend; a call of a backend
      advances; the stream of a worker is polled, or receives a message; the steps of a worker
      ([worker_event]) and of a loop ([tick_event]). *)
  Inductive world_event :=
  | VStore
  | VApp (ev : app_event Schedule Zone)
  | VCall (b : nat) (o : mop)
  | VRun (b : nat) (i : nat)
  | VPoll (i : nat)
  | VRecv (i : nat)
  | VClose (i : nat)
  | VStart (i n : nat)
  | VEnd (i n : nat) (now1 now2 : time) (o : outcome)
  | VAnswer (i n : nat)
  | VFinish (i : nat)
  | VCompute (i : nat) (c0 c1 : time)
  | VWake (i : nat) (c : time)
  | VLeave (i : nat)
  | VActed (i : nat) (c : time)
  | VRested (i : nat) (c : time).

  (** A step of the process. *)
  Definition on_process (now : time) (ev : app_event Schedule Zone) (w : world) : option world :=
    match app_step utc upcoming show_duration now (wd_process w) ev with
    | Some (s, _) =>
        Some (mk_world s (wd_stores w) (wd_streams w) (wd_asks w) (wd_log w ++ [(now, OnProcess ev)]))
    | None => None
    end.

  (** A step of store [b]. *)
  Definition on_store (now : time) (b : nat) (l : label) (w : world) : option world :=
    match nth_error (wd_stores w) b with
    | Some s =>
        Some (mk_world (wd_process w) (set_nth b (fst (conc_step p s l)) (wd_stores w)) (wd_streams w)
                (wd_asks w) (wd_log w ++ [(now, OnStore b l)]))
    | None => None
    end.

  (** Task [i] makes call [o] on store [b] in its turn [n]. *)
  Definition ask_for (now : time) (i n b : nat) (o : mop) (w : world) : option world :=
    match nth_error (wd_stores w) b with
    | Some s =>
        match on_store now b (LCall o) w with
        | Some w' =>
            Some (mk_world (wd_process w') (wd_stores w') (wd_streams w')
                    (wd_asks w' ++ [mk_ask i n (length (c_calls s))]) (wd_log w'))
        | None => None
        end
    | None => None
    end.
  (** Several calls, in order. *)
  Fixpoint ask_all (now : time) (i n b : nat) (l : list mop) (w : world) : option world :=
    match l with
    | [] => Some w
    | o :: l' => match ask_for now i n b o w with Some w' => ask_all now i n b l' w' | None => None end
    end.

  (** runner.rs 45-47: a new worker subscribes to the jobs of its executor. *)
  Definition connect (now : time) (t : task Schedule Zone) (w : world) : option world :=
    match ta_body t with
    | BWorker e _ =>
        match nth_error (wd_stores w) (ta_backend t) with
        | Some s =>
            match on_store now (ta_backend t) (LSubscribe (ex_name (xe_consts e))) w with
            | Some w' =>
                Some (mk_world (wd_process w') (wd_stores w')
                        (wd_streams w' ++ [Some (length (c_streams s))]) (wd_asks w') (wd_log w'))
            | None => None
            end
        | None => None
        end
    | _ => Some (mk_world (wd_process w) (wd_stores w) (wd_streams w ++ [None]) (wd_asks w) (wd_log w))
    end.
  Fixpoint connect_all (now : time) (l : list (task Schedule Zone)) (w : world) : option world :=
    match l with
    | [] => Some w
    | t :: l' => match connect now t w with Some w' => connect_all now l' w' | None => None end
    end.

  (** A call of lib.rs; [Rexecutor::new] needs an existing backend.  The steps of tasks are separate
      events. *)
  Definition world_app (now : time) (ev : app_event Schedule Zone) (w : world) : option world :=
    match ev with
    | AWorker _ _ | ATick _ _ => None
    | ANew b => if Nat.ltb b (length (wd_stores w)) then on_process now ev w else None
    | _ =>
        match on_process now ev w with
        | Some w' => connect_all now (skipn (length (pr_tasks (wd_process w))) (pr_tasks (wd_process w'))) w'
        | None => None
        end
    end.

  (** Is the stream of a worker polled (runner.rs 46-48)? *)
  Definition polls (e : executor) (k : worker) : bool :=
    match w_life k, w_transit k with
    | Working, None => may_poll (ex_max_concurrency (xe_consts e)) k
    | _, _ => false
    end.

  (** Stream [k] of store [b]. *)
  Definition stream_at (b k : nat) (w : world) : option sphase :=
    match nth_error (wd_stores w) b with Some s => nth_error (c_streams s) k | None => None end.

  (** A poll of the stream of worker [i] gets one step further; an item it yields is taken at once,
      a panic ends the worker (memory.rs 44-72, 360-380; runner.rs 46-50). *)
  Definition world_poll (now : time) (i : nat) (w : world) : option world :=
    match nth_error (pr_tasks (wd_process w)) i, nth_error (wd_streams w) i with
    | Some t, Some (Some k) =>
        match ta_body t with
        | BWorker e wk =>
            if polls e wk then
              match on_store now (ta_backend t) (LStream k now) w with
              | Some w' =>
                  match stream_at (ta_backend t) k w' with
                  | Some (SYield (Ok j)) => on_process now (AWorker i (WTake (MJob j))) w'
                  | Some (SYield (Err err)) => on_process now (AWorker i (WTake (MError err))) w'
                  | Some (SYield Panic) | Some SDead => on_process now (AWorker i WPanic) w'
                  | _ => Some w'
                  end
              | None => None
              end
            else None
        | _ => None
        end
    | _, _ => None
    end.

  (** The stream of worker [i] is woken by a message (memory.rs 67-68). *)
  Definition world_recv (now : time) (i : nat) (w : world) : option world :=
    match nth_error (pr_tasks (wd_process w)) i, nth_error (wd_streams w) i with
    | Some t, Some (Some k) =>
        match ta_body t with
        | BWorker e wk => if polls e wk then on_store now (ta_backend t) (LRecv k) w else None
        | _ => None
        end
    | _, _ => None
    end.

  (** The execution of message [n] of worker [i] has ended: the backend is called (runner.rs 105-125,
      146-160). *)
  Definition world_end (now : time) (i n : nat) (now1 now2 : time) (o : outcome) (w : world) : option world :=
    match on_process now (AWorker i (WEnd n now1 now2 o)) w with
    | Some w' =>
        match nth_error (pr_tasks (wd_process w')) i with
        | Some t =>
            match ta_body t with
            | BWorker _ wk =>
                match flight_of n (w_flights wk) with
                | Some (FReporting op) => ask_for now i n (ta_backend t) op w'
                | _ => Some w'
                end
            | _ => Some w'
            end
        | None => None
        end
    | None => None
    end.

  (** Where the calls of turn [n] of task [i] stand. *)
  Definition replies (i n : nat) (w : world) : list (option pc) :=
    map (fun a =>
           match nth_error (pr_tasks (wd_process w)) i with
           | Some t =>
               match nth_error (wd_stores w) (ta_backend t) with
               | Some s => option_map cl_pc (nth_error (c_calls s) (ak_call a))
               | None => None
               end
           | None => None
           end)
      (filter (fun a => Nat.eqb (ak_task a) i && Nat.eqb (ak_turn a) n) (wd_asks w)).

  (** The backend has answered the report for message [n] of worker [i]. *)
  Definition world_answer (now : time) (i n : nat) (w : world) : option world :=
    match replies i n w with
    | [Some (PcDone (RUnit r))] => on_process now (AWorker i (WReported n r)) w
    | _ => None
    end.

  (** The backend calls of a loop that has fired: cron_runner.rs 76-91 (a request that cannot be
      encoded is not sent), pruner/runner.rs 56-61. *)
  Definition deeds (bd : body Schedule Zone) (c next : time) : list mop :=
    match bd with
    | BWorker _ _ => []
    | BCron e _ _ data _ =>
        match request (xe_codec e) (xe_consts e) (cron_builder data (hash e data) c next) with
        | Some r => [OpEnqueue r]
        | None => []
        end
    | BPruner _ cfg _ => map OpPrune (pc_pruners cfg)
    end.

  (** The firings of a loop so far, latest first. *)
  Definition firings (bd : body Schedule Zone) : list (time * time) :=
    match bd with
    | BWorker _ _ => []
    | BCron _ _ _ _ k | BPruner _ _ k => tk_fired k
    end.

  (** A loop wakes and acts. *)
  Definition world_wake (now : time) (i : nat) (c : time) (w : world) : option world :=
    match on_process now (ATick i (Wake c)) w with
    | Some w' =>
        match nth_error (pr_tasks (wd_process w')) i with
        | Some t =>
            match firings (ta_body t) with
            | (c', next) :: _ =>
                ask_all now i (length (firings (ta_body t))) (ta_backend t) (deeds (ta_body t) c' next) w'
            | [] => Some w'
            end
        | None => None
        end
    | None => None
    end.

  (** The call has returned; it has panicked. *)
  Definition is_done (r : option pc) : bool := match r with Some (PcDone _) => true | _ => false end.
  Definition is_panic (r : option pc) : bool :=
    match r with Some (PcDone (RId Panic | RUnit Panic)) => true | _ => false end.

  (** A loop comes back from its action: a panic of one of its calls unwinds through it at once,
      otherwise it waits for all of them (cron_runner.rs 76-91, pruner/runner.rs 56-67). *)
  Definition world_acted (now : time) (i : nat) (c : time) (w : world) : option world :=
    match nth_error (pr_tasks (wd_process w)) i with
    | Some t =>
        let rs := replies i (length (firings (ta_body t))) w in
        if existsb is_panic rs then on_process now (ATick i (Acted c true)) w
        else if forallb is_done rs then on_process now (ATick i (Acted c false)) w
        else None
    | None => None
    end.

  (** One event. *)
  Definition world_step (now : time) (w : world) (ev : world_event) : option world :=
    match ev with
    | VStore =>
        Some (mk_world (wd_process w) (wd_stores w ++ [c_init]) (wd_streams w) (wd_asks w) (wd_log w))
    | VApp ev => world_app now ev w
    | VCall b o => on_store now b (LCall o) w
    | VRun b i => on_store now b (LRun i now) w
    | VPoll i => world_poll now i w
    | VRecv i => world_recv now i w
    | VClose i => on_process now (AWorker i WClose) w
    | VStart i n => on_process now (AWorker i (WStart n)) w
    | VEnd i n now1 now2 o => world_end now i n now1 now2 o w
    | VAnswer i n => world_answer now i n w
    | VFinish i => on_process now (AWorker i WFinish) w
    | VCompute i c0 c1 => on_process now (ATick i (Compute c0 c1)) w
    | VWake i c => world_wake now i c w
    | VLeave i => on_process now (ATick i Cancel) w
    | VActed i c => world_acted now i c w
    | VRested i c => on_process now (ATick i (Rested c)) w
    end.

  (** A history. *)
  Fixpoint world_run (w : world) (es : list (time * world_event)) : option world :=
    match es with
    | [] => Some w
    | (now, ev) :: es' => match world_step now w ev with Some w' => world_run w' es' | None => None end
    end.
End World.
Arguments action : clear implicits. Arguments world : clear implicits. Arguments world_event : clear implicits.
