(** The [Rexecutor] object: how a program starts and stops its background tasks,
    rexecutor/src/lib.rs 728-1076, with the tasks themselves from Runner.v and Ticker.v.

    The state is a process: the [Rexecutor] values it has made (numbered in the order of their
    creation), their cancellation tokens, and the tasks spawned so far.  Backends are numbered: a
    [Rexecutor] and its tasks hold clones of one backend, which share its state.

    Simplifications: [tokio::spawn] starts the task at once; a worker has subscribed to its stream
    when it is spawned (runner.rs 45-47); the executor, its data and its metadata are of any type. *)
From Verif Require Import Base Chrono Types Query Memory Codec Builder GlobalBackend Runner Ticker Pruner.

(** An implementation of [Executor] (rexecutor/src/executor.rs 254-344): its types with their JSON
    encodings, the functions the runner calls and its constants. *)
Record executor := mk_executor {
  xe_data : Type;
  xe_metadata : Type;
  xe_codec : codec xe_data xe_metadata;
  xe_fns : executor_fns xe_data xe_metadata;
  xe_consts : exec_consts
}.

Section App.
  (** [cron::Schedule], [chrono::TimeZone], the value [Utc], and [schedule.upcoming(timezone).next()]
      at a clock reading: oracles.  [show_duration] as in Runner.v. *)
  Context {Schedule Zone : Type}.
  Variable utc : Zone.
  Variable upcoming : Schedule -> Zone -> time -> option time.
  Variable show_duration : Z -> string.

  (** What runs in a task: job/runner.rs 14-40 ([JobRunner]), cron_runner.rs 10-37 ([CronRunner]),
      pruner/runner.rs 11-21 ([PrunerRunner]; the schedule is part of the configuration there). *)
  Inductive body :=
  | BWorker (e : executor) (w : worker)
  | BCron (e : executor) (s : Schedule) (z : Zone) (data : xe_data e) (k : ticker)
  | BPruner (s : Schedule) (cfg : pruner_config) (k : ticker).

  (** A task with its clones of the backend and of the token (a token is known by the number of its
      [Rexecutor]). *)
  Record task := mk_task { ta_backend : nat; ta_token : nat; ta_body : body }.

  (** What the program holds of a [Rexecutor] value: the value itself, with its type state
      [GlobalUnset]/[GlobalSet]; the [DropGuard] made of it (lib.rs 762); or nothing. *)
  Inductive slot := Owned (global : bool) | Guard | Gone.

  (** lib.rs 728-734: [Rexecutor], with its backend, its token (cancelled or not) and what the
      program holds of it. *)
  Record rexecutor := mk_rexecutor { rx_backend : nat; rx_cancelled : bool; rx_slot : slot }.

  (** The process; [pr_cell] is the global backend (global_backend.rs 22). *)
  Record process := mk_process {
    pr_rexecutors : list rexecutor;
    pr_tasks : list task;
    pr_cell : option nat
  }.
  Definition process_init : process := mk_process [] [] None.

  (** What can happen: the calls of lib.rs on [Rexecutor] number [h], dropping the value or its
      guard, or a step of a task. *)
  Inductive app_event :=
  | ANew (backend : nat)
  | ASetGlobal (h : nat)
  | AExecutor (h : nat) (e : executor)
  | ACron (h : nat) (e : executor) (s : Schedule) (data : xe_data e)
  | ACronIn (h : nat) (e : executor) (s : Schedule) (data : xe_data e) (z : Zone)
  | APruner (h : nat) (s : Schedule) (cfg : pruner_config)
  | AShutdown (h : nat)
  | AGuard (h : nat)
  | ADrop (h : nat)
  | ADropGuard (h : nat)
  | AWorker (i : nat) (e : worker_event)
  | ATick (i : nat) (e : tick_event).

  (** lib.rs 750-756: [Rexecutor::new]; [default] (740-742) is [new] with a default backend. *)
  Definition app_new (backend : nat) (s : process) : process :=
    mk_process (pr_rexecutors s ++ [mk_rexecutor backend false (Owned false)]) (pr_tasks s) (pr_cell s).

  (** [Rexecutor] number [h], if the program owns it. *)
  Definition owned (h : nat) (s : process) : option (rexecutor * bool) :=
    match nth_error (pr_rexecutors s) h with
    | Some r => match rx_slot r with Owned g => Some (r, g) | _ => None end
    | None => None
    end.

  (** Replace [Rexecutor] number [h]. *)
  Definition put_rexecutor (h : nat) (r : rexecutor) (s : process) : process :=
    mk_process (set_nth h r (pr_rexecutors s)) (pr_tasks s) (pr_cell s).

  (** [spawn]: a new task with the backend and the token of [Rexecutor] number [h]. *)
  Definition app_spawn (h : nat) (r : rexecutor) (b : body) (s : process) : process :=
    mk_process (pr_rexecutors s) (pr_tasks s ++ [mk_task (rx_backend r) h b]) (pr_cell s).

  (** lib.rs 785-793: [set_global_backend] takes the value and gives it back only if the cell was
      empty ([GlobalBackend::set] is [g_set]); the second component is what the caller gets. *)
  Definition app_set_global (h : nat) (r : rexecutor) (s : process) : process * rres unit :=
    match g_set (mk_gstate (pr_cell s) []) (rx_backend r) with
    | (g, ROk tt) =>
        (mk_process (set_nth h (mk_rexecutor (rx_backend r) (rx_cancelled r) (Owned true)) (pr_rexecutors s))
           (pr_tasks s) (g_cell g), ROk tt)
    | (g, e) =>
        (mk_process (set_nth h (mk_rexecutor (rx_backend r) (rx_cancelled r) Gone) (pr_rexecutors s))
           (pr_tasks s) (g_cell g), e)
    end.

  (** lib.rs 810-818: [with_executor]. *)
  Definition app_executor (h : nat) (r : rexecutor) (e : executor) (s : process) : process :=
    app_spawn h r (BWorker e worker_start) s.

  (** lib.rs 892-908: [with_cron_executor_for_timezone] at clock reading [now]. *)
  Definition app_cron_in (now : time) (h : nat) (r : rexecutor) (e : executor) (sc : Schedule)
    (data : xe_data e) (z : Zone) (s : process) : process :=
    app_executor h r e (app_spawn h r (BCron e sc z data (ticker_start now)) s).

  (** lib.rs 851-858: [with_cron_executor]. *)
  Definition app_cron (now : time) (h : nat) (r : rexecutor) (e : executor) (sc : Schedule)
    (data : xe_data e) (s : process) : process :=
    app_cron_in now h r e sc data utc s.

  (** lib.rs 990-993: [with_job_pruner]. *)
  Definition app_pruner (now : time) (h : nat) (r : rexecutor) (sc : Schedule) (cfg : pruner_config)
    (s : process) : process :=
    app_spawn h r (BPruner sc cfg (ticker_start now)) s.

  (** tokio-util [CancellationToken::cancel], as a task sees it: a worker's stream is told (runner.rs
      47); a loop looks at the token when it is in its select (cron_runner.rs 57-70). *)
  Definition told (h : nat) (t : task) : task :=
    if Nat.eqb (ta_token t) h then
      match ta_body t with
      | BWorker e w =>
          match worker_step (xe_codec e) (xe_fns e) show_duration (ex_max_concurrency (xe_consts e)) w WCancel with
          | Some w' => mk_task (ta_backend t) (ta_token t) (BWorker e w')
          | None => t
          end
      | _ => t
      end
    else t.
  (** The token of [Rexecutor] number [h] is cancelled; nothing is held of it any more: lib.rs
      997-1000 ([graceful_shutdown]), and dropping the tokio-util guard inside [DropGuard]. *)
  Definition app_cancel (h : nat) (r : rexecutor) (s : process) : process :=
    mk_process (set_nth h (mk_rexecutor (rx_backend r) true Gone) (pr_rexecutors s))
      (map (told h) (pr_tasks s)) (pr_cell s).

  (** Has the token of task [t] been cancelled? *)
  Definition token_cancelled (t : task) (s : process) : bool :=
    match nth_error (pr_rexecutors s) (ta_token t) with
    | Some r => rx_cancelled r
    | None => false
    end.

  (** A step of a worker task other than being told to stop. *)
  Definition worker_task_step (t : task) (e : worker_event) : option task :=
    match e, ta_body t with
    | WCancel, _ => None
    | _, BWorker x w =>
        match worker_step (xe_codec x) (xe_fns x) show_duration (ex_max_concurrency (xe_consts x)) w e with
        | Some w' => Some (mk_task (ta_backend t) (ta_token t) (BWorker x w'))
        | None => None
        end
    | _, _ => None
    end.

  (** A step of a loop; it can leave the loop only when its token is cancelled ([stop]). The pruner
      uses [Utc] (pruner/runner.rs 30-31). *)
  Definition tick_task_step (stop : bool) (t : task) (e : tick_event) : option task :=
    match e, stop with
    | Cancel, false => None
    | _, _ =>
        match ta_body t with
        | BCron x sc z data k =>
            match tick_step (upcoming sc z) k e with
            | Some k' => Some (mk_task (ta_backend t) (ta_token t) (BCron x sc z data k'))
            | None => None
            end
        | BPruner sc cfg k =>
            match tick_step (upcoming sc utc) k e with
            | Some k' => Some (mk_task (ta_backend t) (ta_token t) (BPruner sc cfg k'))
            | None => None
            end
        | BWorker _ _ => None
        end
    end.

  (** Replace task number [i]. *)
  Definition put_task (i : nat) (t : option task) (s : process) : option (process * rres unit) :=
    match t with
    | Some t' => Some (mk_process (pr_rexecutors s) (set_nth i t' (pr_tasks s)) (pr_cell s), ROk tt)
    | None => None
    end.

  (** A call that needs ownership of [Rexecutor] number [h]; without it the call cannot be written. *)
  Definition with_owned (h : nat) (s : process) (f : rexecutor -> process) : option (process * rres unit) :=
    match owned h s with
    | Some (r, _) => Some (f r, ROk tt)
    | None => None
    end.

  (** One event at clock reading [now]; [None]: it cannot happen (or does not compile). *)
  Definition app_step (now : time) (s : process) (ev : app_event) : option (process * rres unit) :=
    match ev with
    | ANew b => Some (app_new b s, ROk tt)
    | ASetGlobal h =>
        match owned h s with
        | Some (r, false) => Some (app_set_global h r s)
        | _ => None
        end
    | AExecutor h e => with_owned h s (fun r => app_executor h r e s)
    | ACron h e sc data => with_owned h s (fun r => app_cron now h r e sc data s)
    | ACronIn h e sc data z => with_owned h s (fun r => app_cron_in now h r e sc data z s)
    | APruner h sc cfg => with_owned h s (fun r => app_pruner now h r sc cfg s)
    | AShutdown h => with_owned h s (fun r => app_cancel h r s)
    | AGuard h =>
        (* lib.rs 1055-1057: [drop_guard] *)
        with_owned h s (fun r => put_rexecutor h (mk_rexecutor (rx_backend r) (rx_cancelled r) Guard) s)
    | ADrop h =>
        (* dropping a [Rexecutor]: its token is dropped, not cancelled *)
        with_owned h s (fun r => put_rexecutor h (mk_rexecutor (rx_backend r) (rx_cancelled r) Gone) s)
    | ADropGuard h =>
        match nth_error (pr_rexecutors s) h with
        | Some r => match rx_slot r with Guard => Some (app_cancel h r s, ROk tt) | _ => None end
        | None => None
        end
    | AWorker i e =>
        match nth_error (pr_tasks s) i with
        | Some t => put_task i (worker_task_step t e) s
        | None => None
        end
    | ATick i e =>
        match nth_error (pr_tasks s) i with
        | Some t => put_task i (tick_task_step (token_cancelled t s) t e) s
        | None => None
        end
    end.

  (** A history: events with their clock readings, and what the caller of each gets. *)
  Fixpoint app_run (s : process) (es : list (time * app_event)) : option (process * list (rres unit)) :=
    match es with
    | [] => Some (s, [])
    | (now, ev) :: es' =>
        match app_step now s ev with
        | None => None
        | Some (s', r) =>
            match app_run s' es' with None => None | Some (s'', rs) => Some (s'', r :: rs) end
        end
    end.
End App.
Arguments body : clear implicits. Arguments task : clear implicits. Arguments process : clear implicits.
Arguments app_event : clear implicits.
