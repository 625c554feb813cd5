(** The job runner: what happens to one job, rexecutor/src/job/runner.rs 75-315, and the worker task
    around it, runner.rs 42-73. *)
From Verif Require Import Base Chrono Types Query Memory Codec.

(** The user's [Executor] functions the runner calls outside the spawned execution
    (rexecutor/src/executor.rs 306-327): [timeout] and [backoff]; [None] is a panic.  A timeout is a
    [std::time::Duration] in nanoseconds. *)
Record executor_fns (D M : Type) := mk_fns {
  xf_timeout : tjob D M -> option (option Z);
  xf_backoff : tjob D M -> option delta
}.
Arguments mk_fns {D M}. Arguments xf_timeout {D M}. Arguments xf_backoff {D M}.

(** An execution in progress: the local variables of runner.rs 89-92 and 130-133, and the timeout. *)
Record execution := mk_execution {
  x_id : Z;
  x_final : bool;
  x_delay : delta;
  x_timeout : option Z
}.

(** The payload of a panic as runner.rs 274-279 tells them apart: a [&str] or [String], or anything
    else. *)
Inductive payload := PText (s : string) | PAny.

(** How an execution ends, as the runner's [match] (runner.rs 105-125, 146-160) sees it:
    [ExecutionResult] (executor.rs 562-603), an elapsed timeout, or a [JoinError].  The text of an
    error or a cancellation reason comes from user code run by the runner; [None] is a panic there.
    [join_text] is [JoinError]'s own text. *)
Inductive outcome :=
| ODone
| OCancel (reason : option string)
| OSnooze (d : delta)
| OError (e : option (string * string))
| OElapsed
| OPanic (p : payload) (join_text : string)
| OAborted (join_text : string).

(** What becomes of a message when it is first polled: the execution is spawned, the decoding error
    is logged, or the runner's task panics. *)
Inductive start := Spawned (x : execution) | Logged | Died.

(** runner.rs 50-62, 76-81, 84-103, 129-143: decode, ask for the timeout, compute [is_final_attempt]
    and the backoff, spawn the execution. *)
Definition begin_job {D M} (c : codec D M) (fns : executor_fns D M) (j : job) : start :=
  match typed_of_stored c j with
  | RErr _ => Logged
  | RPanic => Died
  | ROk t =>
      match xf_timeout fns t with
      | None => Died
      | Some timeout =>
          match xf_backoff fns t with
          | None => Died
          | Some d => Spawned (mk_execution (tj_id t) (is_final_attempt t) d timeout)
          end
      end
  end.

Section Report.
  (** [format!("{value:?}")] of a [Duration], runner.rs 312: an oracle. *)
  Variable show_duration : Z -> string.

  (** runner.rs 271-287: [From<JoinError>]. *)
  Definition error_of_join (p : option payload) (join_text : string) : exec_error :=
    mk_exec_error EPanic (match p with Some (PText s) => s | _ => join_text end).
  (** runner.rs 289-296: [From<Box<dyn ExecutionError>>]; the error type text, then the message. *)
  Definition error_of_user (e : string * string) : exec_error :=
    mk_exec_error (EOther (fst e)) (snd e).
  (** runner.rs 298-305: [From<Box<dyn CancellationReason>>]. *)
  Definition error_of_reason (reason : string) : exec_error := mk_exec_error ECancelled reason.
  (** runner.rs 307-314: [From<Duration>]. *)
  Definition error_of_timeout (timeout : Z) : exec_error :=
    mk_exec_error ETimeout ("Job failed to complete within timeout: " ++ show_duration timeout)%string.

  (** runner.rs 220-268: [handle_job_error], up to the backend call.  The clock is read twice (248
      and 258); each addition panics on overflow. *)
  Definition report_error (now1 now2 : time) (x : execution) (e : exec_error) : option mop :=
    if x_final x then Some (OpDiscarded (x_id x) e)
    else match dt_add now1 (x_delay x) with
         | None => None
         | Some _ =>
             match dt_add now2 (x_delay x) with
             | None => None
             | Some t => Some (OpRetryable (x_id x) t e)
             end
         end.

  (** runner.rs 105-125, 146-160, 163-218: the backend call made for an outcome; [None] is a panic of
      the runner's task. *)
  Definition report (now1 now2 : time) (x : execution) (o : outcome) : option mop :=
    match o with
    | ODone => Some (OpComplete (x_id x))
    | OCancel None => None
    | OCancel (Some reason) => Some (OpCancelled (x_id x) (error_of_reason reason))
    | OSnooze d =>
        match dt_add now1 d with
        | None => None
        | Some t => Some (OpSnoozed (x_id x) t)
        end
    | OError None => None
    | OError (Some e) => report_error now1 now2 x (error_of_user e)
    | OElapsed =>
        match x_timeout x with
        | Some d => report_error now1 now2 x (error_of_timeout d)
        | None => None (* without a timeout there is no such outcome *)
        end
    | OPanic p text => report_error now1 now2 x (error_of_join (Some p) text)
    | OAborted text => report_error now1 now2 x (error_of_join None text)
    end.
End Report.

(** * The worker task, runner.rs 42-73

    [subscribe_ready_jobs(..).take_until(cancelled).for_each_concurrent(limit, ..)].  From the
    sources of futures-util 0.3.32: [for_each_concurrent] polls the stream only while fewer futures
    are in progress than the limit, a limit of zero is no limit ([NonZeroUsize::new]), it ends when
    the stream has ended and no future is left; [take_until] checks the token before the stream on
    every poll. *)

(** An item of the stream: a job or an error. *)
Inductive message := MJob (j : job) | MError (e : backend_error).

(** Where a message is on its way through the closure of runner.rs 48-69. *)
Inductive flight_phase :=
| FNew (m : message)            (* future pushed, not yet polled *)
| FExecuting (x : execution)    (* waiting for the spawned execution *)
| FReporting (o : mop).         (* waiting for the backend *)

(** The worker as a whole. *)
Inductive worker_life := Working | Ended | Crashed_worker.

(** What can be observed of a worker: messages taken (numbered), executions spawned, backend calls
    made. *)
Inductive observation :=
| Taken (n : nat) (m : message)
| Started (n : nat) (x : execution)
| Outcome (n : nat) (o : outcome)
| Reported (n : nat) (o : mop).

Record worker := mk_worker {
  w_flights : list (nat * flight_phase);
  w_next : nat;
  w_cancelled : bool;               (* the token *)
  w_open : bool;                    (* the stream has not ended *)
  w_transit : option message;       (* handed out by the backend, not yet returned by the stream *)
  w_life : worker_life;
  w_seen : list observation         (* latest first *)
}.
Definition worker_start : worker := mk_worker [] 0 false true None Working [].

(** futures-util [ForEachConcurrent]: may the stream be polled? *)
Definition below_limit (limit : option Z) (n : nat) : bool :=
  match limit with
  | None => true
  | Some l => (l =? 0) || (Z.of_nat n <? l)
  end.

(** Events.  [WTake]: the stream returns an item, taking it from the backend in the same poll (as
    the in-memory stream does).  [WFetch], [WYield]: the same in two polls with an await in between
    (as the Postgres stream does, rexecutor-sqlx/src/stream.rs 36-43).  [WPanic]: a poll of the stream
    panics (as the in-memory stream may, memory.rs 163, 283).  [WCancel]: the token is
    cancelled.  [WClose]: a poll of the stream notices it.  [WStart n]: first poll of future [n].
    [WEnd n now1 now2 o]: its execution has ended.  [WReported n r]: the backend has answered, the
    future is done.  [WFinish]: the worker task ends. *)
Inductive worker_event :=
| WTake (m : message)
| WFetch (m : message)
| WYield
| WPanic
| WCancel
| WClose
| WStart (n : nat)
| WEnd (n : nat) (now1 now2 : time) (o : outcome)
| WReported (n : nat) (r : result unit)
| WFinish.

(** The first flight numbered [n]. *)
Fixpoint flight_of (n : nat) (l : list (nat * flight_phase)) : option flight_phase :=
  match l with
  | [] => None
  | (k, ph) :: l' => if Nat.eqb k n then Some ph else flight_of n l'
  end.
(** Change the phase of flight [n]; [None] removes it. *)
Fixpoint set_flight (n : nat) (ph : option flight_phase) (l : list (nat * flight_phase))
  : list (nat * flight_phase) :=
  match l with
  | [] => []
  | (k, q) :: l' =>
      if Nat.eqb k n then match ph with Some q' => (k, q') :: l' | None => l' end
      else (k, q) :: set_flight n ph l'
  end.

Section Worker.
  Context {D M : Type}.
  Variable c : codec D M.
  Variable fns : executor_fns D M.
  Variable show_duration : Z -> string.
  Variable limit : option Z.    (* [E::MAX_CONCURRENCY] *)

  (** May a poll of the stream reach the backend's stream? *)
  Definition may_poll (w : worker) : bool :=
    w_open w && negb (w_cancelled w) && below_limit limit (length (w_flights w)).

  (** A new future for message [m]. *)
  Definition push_flight (m : message) (w : worker) : worker :=
    mk_worker (w_flights w ++ [(w_next w, FNew m)]) (S (w_next w)) (w_cancelled w) (w_open w) None
      (w_life w) (Taken (w_next w) m :: w_seen w).

  (** A panic in one of the futures, or in the stream, unwinds through the whole task: all of the
      futures are dropped. *)
  Definition crash (w : worker) : worker :=
    mk_worker [] (w_next w) (w_cancelled w) false None Crashed_worker (w_seen w).

  (** New phase for flight [n], with observations. *)
  Definition progress (n : nat) (ph : option flight_phase) (obs : list observation) (w : worker) : worker :=
    mk_worker (set_flight n ph (w_flights w)) (w_next w) (w_cancelled w) (w_open w) (w_transit w)
      (w_life w) (obs ++ w_seen w).

  Definition worker_step (w : worker) (e : worker_event) : option worker :=
    match w_life w with
    | Working =>
        match e with
        | WTake m =>
            match w_transit w with
            | None => if may_poll w then Some (push_flight m w) else None
            | Some _ => None
            end
        | WFetch m =>
            match w_transit w with
            | None =>
                if may_poll w
                then Some (mk_worker (w_flights w) (w_next w) (w_cancelled w) (w_open w) (Some m)
                             (w_life w) (w_seen w))
                else None
            | Some _ => None
            end
        | WYield =>
            match w_transit w with
            | Some m => if may_poll w then Some (push_flight m w) else None
            | None => None
            end
        | WPanic =>
            match w_transit w with
            | None => if may_poll w then Some (crash w) else None
            | Some _ => None
            end
        | WCancel =>
            Some (mk_worker (w_flights w) (w_next w) true (w_open w) (w_transit w) (w_life w) (w_seen w))
        | WClose =>
            if w_open w && w_cancelled w && below_limit limit (length (w_flights w))
            then Some (mk_worker (w_flights w) (w_next w) (w_cancelled w) false None (w_life w) (w_seen w))
            else None
        | WStart n =>
            match flight_of n (w_flights w) with
            | Some (FNew (MError _)) => Some (progress n None [] w)
            | Some (FNew (MJob j)) =>
                match begin_job c fns j with
                | Logged => Some (progress n None [] w)
                | Spawned x => Some (progress n (Some (FExecuting x)) [Started n x] w)
                | Died => Some (crash w)
                end
            | _ => None
            end
        | WEnd n now1 now2 o =>
            match flight_of n (w_flights w) with
            | Some (FExecuting x) =>
                match o, x_timeout x with
                | OElapsed, None => None
                | _, _ =>
                    let w' := progress n (Some (FExecuting x)) [Outcome n o] w in
                    match report show_duration now1 now2 x o with
                    | Some op => Some (progress n (Some (FReporting op)) [Reported n op] w')
                    | None => Some (crash w')
                    end
                end
            | _ => None
            end
        | WReported n r =>
            match flight_of n (w_flights w) with
            | Some (FReporting _) =>
                match r with
                | Panic => Some (crash w)
                | _ => Some (progress n None [] w)
                end
            | _ => None
            end
        | WFinish =>
            match w_open w, w_flights w with
            | false, [] =>
                Some (mk_worker [] (w_next w) (w_cancelled w) false None Ended (w_seen w))
            | _, _ => None
            end
        end
    | _ => None
    end.

  Fixpoint worker_run (w : worker) (es : list worker_event) : option worker :=
    match es with
    | [] => Some w
    | e :: es' => match worker_step w e with None => None | Some w' => worker_run w' es' end
    end.
End Worker.

(** * Workers driving the in-memory backend

    The store with the executions that hold one of its jobs.  Every operation is one step, as each
    holds the store's lock (the finer interleavings of unique enqueues are in MemConc.v). *)

(** A job in the hands of a worker: the job as handed out and its execution, [None] if the message
    was not executed (decoding failed or the worker died). *)
Record holding := mk_holding { h_job : job; h_exec : option execution }.

Record sys := mk_sys {
  s_mem : mem;
  s_held : list holding;
  s_log : list (Z * outcome)     (* outcomes reported, latest first, with the job id *)
}.
Definition sys_init : sys := mk_sys mem_init [] [].

(** [SOp]: any operation called from outside; [STake]: a worker of an executor takes a job and
    starts it; [SReport i]: the [i]-th held job's execution ends and is reported, with the clock
    readings of [report] and of the backend. *)
Inductive sevent :=
| SOp (now : time) (o : mop)
| STake (now : time) (executor : string)
| SReport (now1 now2 now : time) (i : nat) (o : outcome).

(** Remove the [n]-th element. *)
Fixpoint drop_nth {A} (n : nat) (l : list A) : list A :=
  match n, l with
  | _, [] => []
  | O, _ :: l' => l'
  | S n', x :: l' => x :: drop_nth n' l'
  end.

Section Sys.
  Context {D M : Type}.
  Variable c : codec D M.
  Variable fns : executor_fns D M.
  Variable show_duration : Z -> string.
  Variable p : profile.

  Definition sys_step (s : sys) (e : sevent) : option sys :=
    match e with
    | SOp now o => Some (mk_sys (fst (mem_step p now (s_mem s) o)) (s_held s) (s_log s))
    | STake now ex =>
        match mem_load p now (s_mem s) ex with
        | (m', Ok (Some j)) =>
            Some (mk_sys m' (s_held s ++ [mk_holding j
                    (match begin_job c fns j with Spawned x => Some x | _ => None end)]) (s_log s))
        | (m', _) => Some (mk_sys m' (s_held s) (s_log s))
        end
    | SReport now1 now2 now i o =>
        match nth_error (s_held s) i with
        | Some (mk_holding _ (Some x)) =>
            match report show_duration now1 now2 x o with
            | Some op =>
                Some (mk_sys (fst (mem_step p now (s_mem s) op)) (drop_nth i (s_held s))
                        ((x_id x, o) :: s_log s))
            | None => None
            end
        | _ => None
        end
    end.

  Fixpoint sys_run (s : sys) (es : list sevent) : option sys :=
    match es with
    | [] => Some s
    | e :: es' => match sys_step s e with None => None | Some s' => sys_run s' es' end
    end.
End Sys.
