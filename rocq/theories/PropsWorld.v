(** Properties of a whole program on in-memory backends (C92-C98). *)
From Coq Require Import Lia Permutation.
From Verif Require Import Base Chrono Types Query Memory MemSpec MemConc MemConcSpec Codec Builder Runner RunnerSpec
  Ticker Pruner Samples App AppSpec World WorldSpec WorldThms WorldOnce WorldLive WorldWork PropsRunner PropsApp.

(** A sample hash function. *)
Definition key_of (e : executor) (data : xe_data e) : Z := 7.
Notation vrun := (world_run (Schedule := Z) (Zone := Z) 0 every shown key_of Debug).
Notation vstep := (world_step (Schedule := Z) (Zone := Z) 0 every shown key_of Debug).

(** A program with a backend, an executor, and a cron executor: a mail job is enqueued, run and
    reported on; the cron executor sends a request, whose job is taken. *)
Definition day : list (time * world_event Z Z) :=
  [ (1, VStore); (2, VApp (ANew 0)); (3, VApp (AExecutor 0 mail_executor)); (4, VApp (ACron 0 push_executor 1000 "news"%string));
    (5, VCall 0 (OpEnqueue (req mail 0 10))); (6, VRun 0 0); (7, VRun 0 0); (8, VRun 0 0); (9, VRun 0 0);
    (20, VPoll 0); (21, VPoll 0); (22, VPoll 0); (23, VStart 0 0); (30, VEnd 0 0 31 32 ODone); (33, VCompute 1 33 34);
    (35, VRun 0 1); (1100, VWake 1 1100); (1101, VRun 0 2); (1102, VAnswer 0 0); (1103, VRun 0 2); (1104, VRun 0 2); (1105, VRun 0 2);
    (1106, VActed 1 1106); (1107, VPoll 2); (1108, VPoll 2); (1109, VPoll 2) ].

(** What a program has done with its tasks and its first store, in short. *)
Definition taken_ids (w : world Z Z) : list (list Z) :=
  map (fun t => match ta_body t with BWorker _ wk => map j_id (jobs_taken wk) | _ => [] end) (pr_tasks (wd_process w)).
Definition done_calls (w : world Z Z) (b : nat) : list (option pc) :=
  match nth_error (wd_stores w) b with Some s => map (fun c => Some (cl_pc c)) (c_calls s) | None => [] end.

(** * C92 A program is its parts, put together *)

(** Whatever happens, the process goes through a history of the [Rexecutor] object, in which the calls
    of lib.rs are the program's; and each backend goes through a history of the concurrent in-memory
    store.  So all that is proved of them (C78-C83, C29-C36) holds in a program. *)
Theorem C92_process : forall Schedule Zone (utc : Zone) (upcoming : Schedule -> Zone -> time -> option time) show hash p es w,
  world_run utc upcoming show hash p world_init es = Some w ->
  (exists pes rs, app_run utc upcoming show process_init pes = Some (wd_process w, rs)
     /\ pes = process_events (wd_log w) /\ not_of_tasks pes = program es)
  /\ forall b s, nth_error (wd_stores w) b = Some s -> s = conc_run p c_init (labels b (wd_log w)).
Proof.
  intros Sc Zn utc up show hash p es w H. split; [exact (process_thm utc up show hash p es w H)|].
  intros b s. exact (store_thm utc up show hash p es w b s H).
Qed.
Print Assumptions C92_process.

(** What each event does to the process and the stores. *)
Theorem C92_events : forall Schedule Zone (utc : Zone) (upcoming : Schedule -> Zone -> time -> option time) show hash p now w ev w',
  world_step utc upcoming show hash p now w ev = Some w' ->
  exists added, wd_log w' = wd_log w ++ added /\
  match ev with
  | VStore => added = [] /\ wd_stores w' = wd_stores w ++ [c_init] /\ wd_process w' = wd_process w
  | VApp a => process_events added = [(now, a)]
      /\ forall b, labels b added
         = flat_map (fun t => match ta_body t with
             | BWorker e _ => if Nat.eqb (ta_backend t) b then [LSubscribe (ex_name (xe_consts e))] else [] | _ => [] end)
           (skipn (length (pr_tasks (wd_process w))) (pr_tasks (wd_process w')))
  | VCall b o => added = [(now, OnStore b (LCall o))]
  | VRun b i => added = [(now, OnStore b (LRun i now))]
  | VPoll i => exists t k s, nth_error (pr_tasks (wd_process w)) i = Some t /\ nth_error (wd_streams w) i = Some (Some k)
      /\ nth_error (wd_stores w) (ta_backend t) = Some s
      /\ added = (now, OnStore (ta_backend t) (LStream k now))
           :: match nth_error (c_streams (fst (conc_step p s (LStream k now)))) k with
              | Some (SYield (Ok j)) => [(now, OnProcess (AWorker i (WTake (MJob j))))]
              | Some (SYield (Err err)) => [(now, OnProcess (AWorker i (WTake (MError err))))]
              | Some (SYield Panic) | Some SDead => [(now, OnProcess (AWorker i WPanic))]
              | _ => []
              end
  | VRecv i => exists t k, nth_error (pr_tasks (wd_process w)) i = Some t /\ nth_error (wd_streams w) i = Some (Some k)
      /\ added = [(now, OnStore (ta_backend t) (LRecv k))]
  | VClose i => added = [(now, OnProcess (AWorker i WClose))]
  | VStart i n => added = [(now, OnProcess (AWorker i (WStart n)))]
  | VEnd i n n1 n2 o => process_events added = [(now, AWorker i (WEnd n n1 n2 o))]
  | VAnswer i n => exists r, added = [(now, OnProcess (AWorker i (WReported n r)))]
  | VFinish i => added = [(now, OnProcess (AWorker i WFinish))]
  | VCompute i c0 c1 => added = [(now, OnProcess (ATick i (Compute c0 c1)))]
  | VWake i c => process_events added = [(now, ATick i (Wake c))]
  | VLeave i => added = [(now, OnProcess (ATick i Cancel))]
  | VActed i c => exists panicked, added = [(now, OnProcess (ATick i (Acted c panicked)))]
  | VRested i c => added = [(now, OnProcess (ATick i (Rested c)))]
  end.
Proof. intros Sc Zn utc up show hash p. exact (events_thm utc up show hash p). Qed.
Print Assumptions C92_events.

Example C92_example : exists w,
  vrun world_init day = Some w /\ length (wd_stores w) = 1%nat /\ length (pr_tasks (wd_process w)) = 3%nat
  /\ taken_ids w = [[0]; []; [1]] /\ done_calls w 0 = [Some (PcDone (RId (Ok 0))); Some (PcDone (RUnit (Ok tt))); Some (PcDone (RId (Ok 1)))]
  /\ length (labels 0 (wd_log w)) = 20%nat /\ length (process_events (wd_log w)) = 11%nat.
Proof. eexists. split; [vm_compute; reflexivity|]. vm_compute. auto 10. Qed.
Example C92_example_step : exists w w', vrun world_init (firstn 11 day) = Some w /\ vstep 22 w (VPoll 0) = Some w'
  /\ length (wd_log w') = S (S (length (wd_log w))).
Proof. do 2 eexists. split; [vm_compute; reflexivity|]. split; vm_compute; reflexivity. Qed.

(** * C93 Jobs go from the stores to the workers *)

(** Each job a store has given out has been taken by exactly one worker, each time. *)
Theorem C93_given : forall Schedule Zone (utc : Zone) (upcoming : Schedule -> Zone -> time -> option time) show hash p es w b,
  world_run utc upcoming show hash p world_init es = Some w ->
  Permutation (given (conc_trace p c_init (labels b (wd_log w)))) (flat_map (taken_on b) (pr_tasks (wd_process w))).
Proof. intros Sc Zn utc up show hash p es w b H. exact (given_thm utc up show hash p es w b H). Qed.
Print Assumptions C93_given.

(** Each worker has a stream of its own, on the backend of its [Rexecutor] and for its executor; it has
    taken, in order, exactly the jobs that stream was given, all of them its executor's. *)
Theorem C93_stream : forall Schedule Zone (utc : Zone) (upcoming : Schedule -> Zone -> time -> option time) show hash p es w i t e wk,
  world_run utc upcoming show hash p world_init es = Some w ->
  nth_error (pr_tasks (wd_process w)) i = Some t -> ta_body t = BWorker e wk ->
  exists k s sb, nth_error (wd_streams w) i = Some (Some k) /\ nth_error (wd_stores w) (ta_backend t) = Some s
    /\ nth_error (m_subs (c_mem s)) k = Some sb /\ sub_executor sb = ex_name (xe_consts e) /\ (k < length (c_streams s))%nat
    /\ jobs_taken wk = handed k (conc_trace p c_init (labels (ta_backend t) (wd_log w)))
    /\ (forall j, In j (jobs_taken wk) -> j_executor j = ex_name (xe_consts e))
    /\ (forall i' t', nth_error (pr_tasks (wd_process w)) i' = Some t' -> ta_backend t' = ta_backend t ->
          nth_error (wd_streams w) i' = Some (Some k) -> i' = i).
Proof. intros Sc Zn utc up show hash p es w i t e wk H. exact (stream_thm utc up show hash p es w i t e wk H). Qed.
Print Assumptions C93_stream.

(** Every stream of a store belongs to a worker. *)
Theorem C93_no_stray_stream : forall Schedule Zone (utc : Zone) (upcoming : Schedule -> Zone -> time -> option time) show hash p es w b s k,
  world_run utc upcoming show hash p world_init es = Some w -> nth_error (wd_stores w) b = Some s -> (k < length (c_streams s))%nat ->
  exists i t e wk, nth_error (pr_tasks (wd_process w)) i = Some t /\ ta_backend t = b /\ ta_body t = BWorker e wk
    /\ nth_error (wd_streams w) i = Some (Some k).
Proof. intros Sc Zn utc up show hash p es w b s k H. exact (streams_thm utc up show hash p es w b s k H). Qed.
Print Assumptions C93_no_stray_stream.

(** A worker's stream is polled only while the worker lives, has not been told to stop, and has fewer
    jobs in progress than its limit; and then it can be. *)
Theorem C93_poll : forall Schedule Zone (utc : Zone) (upcoming : Schedule -> Zone -> time -> option time) show hash p es w i t e wk now,
  world_run utc upcoming show hash p world_init es = Some w ->
  nth_error (pr_tasks (wd_process w)) i = Some t -> ta_body t = BWorker e wk ->
  (exists w', world_step utc upcoming show hash p now w (VPoll i) = Some w')
  <-> w_life wk = Working /\ w_transit wk = None /\ w_open wk = true /\ w_cancelled wk = false
      /\ match ex_max_concurrency (xe_consts e) with
         | Some l => l = 0 \/ Z.of_nat (length (w_flights wk)) < l
         | None => True
         end.
Proof. intros Sc Zn utc up show hash p es w i t e wk now H. exact (poll_thm utc up show hash p es w i t e wk now H). Qed.
Print Assumptions C93_poll.

Example C93_example : exists w t e wk,
  vrun world_init day = Some w /\ nth_error (pr_tasks (wd_process w)) 2 = Some t /\ ta_body t = BWorker e wk
  /\ map j_id (jobs_taken wk) = [1] /\ nth_error (wd_streams w) 2 = Some (Some 1%nat)
  /\ map j_id (given (conc_trace Debug c_init (labels 0 (wd_log w)))) = [0; 1].
Proof. do 4 eexists. split; [vm_compute; reflexivity|]. split; [reflexivity|]. split; [reflexivity|]. vm_compute. auto. Qed.
(** While its only slot is taken, the mail executor's stream is not polled; afterwards it is. *)
Example C93_example_limit : exists w w',
  vrun world_init (firstn 14 day) = Some w /\ vstep 40 w (VPoll 0) = None
  /\ vrun world_init day = Some w' /\ exists w'', vstep 2000 w' (VPoll 0) = Some w''.
Proof.
  do 2 eexists. split; [vm_compute; reflexivity|]. split; [vm_compute; reflexivity|]. split; [vm_compute; reflexivity|].
  eexists. vm_compute. reflexivity.
Qed.

(** * C94 Calls go from the tasks to the stores *)

(** The backend calls each task has made are those it has reason to make, in that order, no more and no
    less: a worker its reports, a cron executor one request for each instant it fired at, a pruner all
    its rules at each instant.  Each call is made by one task, once. *)
Theorem C94_made : forall Schedule Zone (utc : Zone) (upcoming : Schedule -> Zone -> time -> option time) show hash p es w,
  world_run utc upcoming show hash p world_init es = Some w ->
  (forall i t, nth_error (pr_tasks (wd_process w)) i = Some t ->
     made_by w i = map (fun x => (fst x, Some (snd x))) (owed hash (ta_body t)))
  /\ (forall n1 n2 a1 a2 t1 t2, nth_error (wd_asks w) n1 = Some a1 -> nth_error (wd_asks w) n2 = Some a2 ->
        nth_error (pr_tasks (wd_process w)) (ak_task a1) = Some t1 -> nth_error (pr_tasks (wd_process w)) (ak_task a2) = Some t2 ->
        ta_backend t1 = ta_backend t2 -> ak_call a1 = ak_call a2 -> n1 = n2).
Proof.
  intros Sc Zn utc up show hash p es w H. split.
  - intros i t. exact (made_thm utc up show hash p es w i t H).
  - intros n1 n2 a1 a2 t1 t2. exact (asked_once utc up show hash p es w n1 n2 a1 a2 t1 t2 H).
Qed.
Print Assumptions C94_made.

(** The calls on a store are those of its tasks and those the program made itself. *)
Theorem C94_calls : forall Schedule Zone (utc : Zone) (upcoming : Schedule -> Zone -> time -> option time) show hash p es w b s,
  world_run utc upcoming show hash p world_init es = Some w -> nth_error (wd_stores w) b = Some s ->
  Permutation (map cl_op (c_calls s)) (filter callable (outside b es) ++ flat_map (owed_on hash b) (pr_tasks (wd_process w))).
Proof. intros Sc Zn utc up show hash p es w b s H. exact (calls_thm utc up show hash p es w b s H). Qed.
Print Assumptions C94_calls.

(** A worker that has reported a job is told the result of that very call, as soon as there is one. *)
Theorem C94_answer : forall Schedule Zone (utc : Zone) (upcoming : Schedule -> Zone -> time -> option time) show hash p es w i t e wk n op,
  world_run utc upcoming show hash p world_init es = Some w ->
  nth_error (pr_tasks (wd_process w)) i = Some t -> ta_body t = BWorker e wk ->
  flight_of n (w_flights wk) = Some (FReporting op) ->
  exists a c, filter (fun a => Nat.eqb (ak_task a) i && Nat.eqb (ak_turn a) n) (wd_asks w) = [a]
    /\ call_at w i (ak_call a) = Some c /\ cl_op c = op
    /\ forall now, match cl_pc c with
       | PcDone r => exists r' w' wk', r = RUnit r' /\ world_step utc upcoming show hash p now w (VAnswer i n) = Some w'
           /\ worker_step (xe_codec e) (xe_fns e) show (ex_max_concurrency (xe_consts e)) wk (WReported n r') = Some wk'
           /\ pr_tasks (wd_process w') = set_nth i (mk_task (ta_backend t) (ta_token t) (BWorker e wk')) (pr_tasks (wd_process w))
           /\ wd_stores w' = wd_stores w
       | _ => world_step utc upcoming show hash p now w (VAnswer i n) = None
       end.
Proof. intros Sc Zn utc up show hash p es w i t e wk n op H. exact (answer_thm utc up show hash p es w i t e wk n op H). Qed.
Print Assumptions C94_answer.

(** A loop comes back from acting only when all calls of its latest firing are done without a panic,
    or one has panicked - and then it dies. *)
Theorem C94_acted : forall Schedule Zone (utc : Zone) (upcoming : Schedule -> Zone -> time -> option time) show hash p es w i t c now w',
  world_run utc upcoming show hash p world_init es = Some w ->
  nth_error (pr_tasks (wd_process w)) i = Some t -> world_step utc upcoming show hash p now w (VActed i c) = Some w' ->
  exists cs, map cl_op cs = map snd (filter (fun x => Nat.eqb (fst x) (length (firings (ta_body t)))) (owed hash (ta_body t)))
    /\ (forall x, In x cs -> exists k s, nth_error (wd_stores w) (ta_backend t) = Some s /\ nth_error (c_calls s) k = Some x)
    /\ ((exists x, In x cs /\ (cl_pc x = PcDone (RId Panic) \/ cl_pc x = PcDone (RUnit Panic)))
          /\ wd_log w' = wd_log w ++ [(now, OnProcess (ATick i (Acted c true)))]
        \/ (forall x, In x cs -> exists r, cl_pc x = PcDone r /\ r <> RId Panic /\ r <> RUnit Panic)
          /\ wd_log w' = wd_log w ++ [(now, OnProcess (ATick i (Acted c false)))]).
Proof. intros Sc Zn utc up show hash p es w i t c now w' H. exact (acted_thm utc up show hash p es w i t c now w' H). Qed.
Print Assumptions C94_acted.

Example C94_example : exists w,
  vrun world_init day = Some w /\ made_by w 0 = [(0%nat, Some (OpComplete 0))]
  /\ map fst (made_by w 1) = [1%nat] /\ made_by w 2 = [] /\ wd_asks w = [mk_ask 0 0 1; mk_ask 1 1 2]
  /\ map (fun t => length (owed key_of (ta_body t))) (pr_tasks (wd_process w)) = [1%nat; 1%nat; 0%nat]
  /\ outside 0 day = [OpEnqueue (req mail 0 10)].
Proof. eexists. split; [vm_compute; reflexivity|]. vm_compute. auto 10. Qed.
(** The report is answered once it is carried out, not before; the cron executor waits for its request. *)
Example C94_example_answer : exists w w1 t e wk,
  vrun world_init (firstn 15 day) = Some w /\ nth_error (pr_tasks (wd_process w)) 0 = Some t /\ ta_body t = BWorker e wk
  /\ flight_of 0 (w_flights wk) = Some (FReporting (OpComplete 0)) /\ vstep 34 w (VAnswer 0 0) = None
  /\ vstep 35 w (VRun 0 1) = Some w1 /\ exists w2, vstep 36 w1 (VAnswer 0 0) = Some w2.
Proof.
  do 5 eexists. split; [vm_compute; reflexivity|]. split; [reflexivity|]. split; [reflexivity|]. split; [reflexivity|].
  split; [vm_compute; reflexivity|]. split; [vm_compute; reflexivity|]. eexists. vm_compute. reflexivity.
Qed.
Example C94_example_acted : exists w w1 w2,
  vrun world_init (firstn 21 day) = Some w /\ vstep 1106 w (VActed 1 1106) = None
  /\ vstep 1105 w (VRun 0 2) = Some w1 /\ vstep 1106 w1 (VActed 1 1106) = Some w2.
Proof. do 3 eexists. split; [vm_compute; reflexivity|]. split; [vm_compute; reflexivity|]. split; vm_compute; reflexivity. Qed.

(** * C95 No job is run by two workers at once *)

(** A job is held by a worker from when it is taken until it is reported on.  It has never more
    holders than one, plus one for each retry, snooze, rerun or update of it that the program called
    itself, plus one for each unique enqueue that found it in its way. *)
Theorem C95_holders_partial : forall Schedule Zone (utc : Zone) (upcoming : Schedule -> Zone -> time -> option time) show hash p es w b s id,
  world_run utc upcoming show hash p world_init es = Some w -> nth_error (wd_stores w) b = Some s ->
  Z.of_nat (length (filter enqueues_job (c_calls s))) <= 4294967296 ->
  (length (filter (fun j => Z.eqb (j_id j) id) (flat_map (held_on b) (pr_tasks (wd_process w))))
   <= 1 + length (filter (reopens id) (outside b es)) + length (filter (wrote_back id) (c_calls s)))%nat.
Proof. intros Sc Zn utc up show hash p es w b s id H. exact (holders_thm utc up show hash p es w b s id H). Qed.
Print Assumptions C95_holders_partial.

(** Missing: that it has only one.  That holds if the program's own enqueues on that backend are not
    unique and it releases no job itself.  (A cron executor's enqueues are unique within no time at
    all, which no job ever is.) *)
Theorem C95_exclusive_partial : forall Schedule Zone (utc : Zone) (upcoming : Schedule -> Zone -> time -> option time) show hash p es w b s,
  world_run utc upcoming show hash p world_init es = Some w -> nth_error (wd_stores w) b = Some s ->
  Z.of_nat (length (filter enqueues_job (c_calls s))) <= 4294967296 ->
  (forall e, In (OpEnqueue e) (outside b es) -> eq_criteria e = None) ->
  (forall o id, In o (outside b es) -> reopens id o = false) ->
  NoDup (map j_id (flat_map (held_on b) (pr_tasks (wd_process w)))).
Proof. intros Sc Zn utc up show hash p es w b s H. exact (exclusive_thm utc up show hash p es w b s H). Qed.
Print Assumptions C95_exclusive_partial.

(** Two equal unique enqueues at the same time: the second finds the job of the first, a worker takes
    the job, and the second writes its copy of the job back, so that another worker takes it too. *)
Definition two_enqueues : list (time * world_event Z Z) :=
  [ (1, VStore); (2, VApp (ANew 0)); (3, VApp (AExecutor 0 push_executor)); (4, VApp (AExecutor 0 push_executor));
    (5, VCall 0 (OpEnqueue (ureq push 0 5 (mk_criteria None true None [Scheduled] DoNothing))));
    (5, VCall 0 (OpEnqueue (ureq push 0 5 (mk_criteria None true None [Scheduled] DoNothing))));
    (6, VRun 0 0); (6, VRun 0 0); (6, VRun 0 0); (6, VRun 0 0); (7, VRun 0 1);
    (8, VPoll 0); (8, VPoll 0); (8, VPoll 0); (9, VStart 0 0); (10, VRun 0 1);
    (11, VPoll 1); (11, VPoll 1); (11, VPoll 1); (12, VStart 1 0) ].
Theorem C95_exclusive_refuted : exists w s,
  vrun world_init two_enqueues = Some w /\ nth_error (wd_stores w) 0 = Some s
  /\ (forall o id, In o (outside 0 two_enqueues) -> reopens id o = false)
  /\ map j_id (flat_map (held_on 0) (pr_tasks (wd_process w))) = [0; 0]
  /\ map (fun t => match ta_body t with BWorker _ wk => map (fun f => match snd f with FExecuting x => x_id x | _ => -1 end) (w_flights wk)
                   | _ => [] end) (pr_tasks (wd_process w)) = [[0]; [0]]
  /\ map (wrote_back 0) (c_calls s) = [false; true].
Proof.
  do 2 eexists. split; [vm_compute; reflexivity|]. split; [reflexivity|]. split; [|vm_compute; auto 10].
  intros o id Ho. cbn in Ho. destruct Ho as [<-|[<-|[]]]; reflexivity.
Qed.
Print Assumptions C95_exclusive_refuted.

(** Two jobs held by two workers, while a cron executor sends the same request twice. *)
Definition busy_day : list (time * world_event Z Z) :=
  [ (1, VStore); (2, VApp (ANew 0)); (3, VApp (ACron 0 push_executor 1000 "news"%string)); (4, VApp (ACron 0 push_executor 1000 "news"%string));
    (5, VCompute 0 5 5); (6, VCompute 2 6 6); (1100, VWake 0 1100); (1100, VWake 2 1100);
    (1101, VRun 0 0); (1101, VRun 0 0); (1101, VRun 0 0); (1101, VRun 0 0); (1102, VRun 0 1);
    (1103, VPoll 1); (1103, VPoll 1); (1103, VPoll 1); (1104, VStart 1 0); (1105, VRun 0 1); (1105, VRun 0 1); (1105, VRun 0 1);
    (1106, VPoll 3); (1106, VPoll 3); (1106, VPoll 3); (1107, VStart 3 0);
    (1108, VCall 0 (OpEnqueue (req push 0 5))); (1109, VRun 0 2); (1109, VRun 0 2); (1109, VRun 0 2) ].
Example C95_example : exists w s,
  vrun world_init busy_day = Some w /\ nth_error (wd_stores w) 0 = Some s
  /\ (length (filter enqueues_job (c_calls s)) <= 3)%nat
  /\ (forall e, In (OpEnqueue e) (outside 0 busy_day) -> eq_criteria e = None)
  /\ (forall o id, In o (outside 0 busy_day) -> reopens id o = false)
  /\ map j_id (flat_map (held_on 0) (pr_tasks (wd_process w))) = [0; 1].
Proof.
  do 2 eexists. split; [vm_compute; reflexivity|]. split; [reflexivity|]. split; [cbn; lia|]. split.
  - intros e Hc. cbn in Hc. destruct Hc as [He|[]]. injection He as <-. reflexivity.
  - split; [|reflexivity]. intros o id Ho. cbn in Ho. destruct Ho as [<-|[]]; reflexivity.
Qed.

(** * C96 A task does not leave its calls behind *)

(** A call of a task has returned, or the task is still waiting for it - a worker for the answer to the
    report of that message, a loop for the calls of its latest firing -, or the task has died. *)
Theorem C96_waits : forall Schedule Zone (utc : Zone) (upcoming : Schedule -> Zone -> time -> option time) show hash p es w i t a,
  world_run utc upcoming show hash p world_init es = Some w ->
  nth_error (pr_tasks (wd_process w)) i = Some t -> In a (wd_asks w) -> ak_task a = i ->
  (exists x r, call_at w i (ak_call a) = Some x /\ cl_pc x = PcDone r)
  \/ died t
  \/ match ta_body t with
     | BWorker _ wk => exists op, flight_of (ak_turn a) (w_flights wk) = Some (FReporting op)
     | BCron _ _ _ _ k | BPruner _ _ k => ak_turn a = length (tk_fired k) /\ exists next, tk_phase k = Acting next
     end.
Proof.
  intros Sc Zn utc up show hash p es w i t a H Ht Ha Hi. destruct (covered_thm utc up show hash p es w H a Ha) as [t' [H1 H2]].
  rewrite Hi in *. assert (t' = t) as -> by congruence. destruct H2 as [[H2|H2]|H2]; auto.
Qed.
Print Assumptions C96_waits.

(** So when a task has come to its end in an orderly way, all its reports, requests or prunes have been
    carried out. *)
Theorem C96_ended : forall Schedule Zone (utc : Zone) (upcoming : Schedule -> Zone -> time -> option time) show hash p es w i t a,
  world_run utc upcoming show hash p world_init es = Some w ->
  nth_error (pr_tasks (wd_process w)) i = Some t -> ended t -> In a (wd_asks w) -> ak_task a = i ->
  exists x r, call_at w i (ak_call a) = Some x /\ cl_pc x = PcDone r.
Proof.
  intros Sc Zn utc up show hash p es w i t a H Ht He Ha Hi.
  destruct (C96_waits _ _ utc up show hash p es w i t a H Ht Ha Hi) as [K|[K|K]]; [exact K|..]; exfalso; unfold ended, died in *.
  - destruct (ta_body t); congruence.
  - destruct (ta_body t) as [e wk|e sc z d k|sc cfg k] eqn:Eb; [|destruct K as [_ [n K]]; congruence..].
    destruct K as [op K]. destruct (flight_reporting utc up show hash p es w t e wk _ op H (nth_error_In _ _ Ht) Eb K) as [K' _]. congruence.
Qed.
Print Assumptions C96_ended.

(** The day ends: the program shuts down. *)
Definition evening : list (time * world_event Z Z) :=
  day ++ [ (1200, VApp (AShutdown 0)); (1201, VClose 0); (1202, VFinish 0); (1203, VStart 2 0); (1204, VEnd 2 0 1204 1204 ODone) ].
Example C96_example : exists w t0 t2 a0 a2,
  vrun world_init evening = Some w /\ nth_error (pr_tasks (wd_process w)) 0 = Some t0 /\ nth_error (pr_tasks (wd_process w)) 2 = Some t2
  /\ ended t0 /\ ~ ended t2 /\ In a0 (wd_asks w) /\ ak_task a0 = 0%nat /\ In a2 (wd_asks w) /\ ak_task a2 = 2%nat
  /\ option_map cl_pc (call_at w 2 (ak_call a2)) = Some PcStart.
Proof.
  do 3 eexists. exists (mk_ask 0 0 1), (mk_ask 2 0 3). split; [vm_compute; reflexivity|]. split; [reflexivity|]. split; [reflexivity|].
  split; [reflexivity|]. split; [discriminate|]. split; [cbn; auto|]. split; [reflexivity|]. split; [cbn; auto|]. split; reflexivity.
Qed.

(** * C97 A shutdown can always be completed *)

(** A task whose [Rexecutor] has been shut down can come to its end by steps of its own and of the calls
    on its store, whatever it is doing, and without anything else changing in the process. *)
Theorem C97_task : forall Schedule Zone (utc : Zone) (upcoming : Schedule -> Zone -> time -> option time) show hash p es w i t,
  world_run utc upcoming show hash p world_init es = Some w ->
  nth_error (pr_tasks (wd_process w)) i = Some t -> shut (ta_token t) (program es) ->
  (forall e l, purpose t = RunsJobs e -> ex_max_concurrency (xe_consts e) = Some l -> 0 <= l) ->
  exists es' w' t', world_run utc upcoming show hash p w es' = Some w'
    /\ Forall (fun x => own (ta_backend t) i (snd x)) es'
    /\ nth_error (pr_tasks (wd_process w')) i = Some t' /\ (ended t' \/ died t') /\ purpose t' = purpose t
    /\ (forall k, k <> i -> nth_error (pr_tasks (wd_process w')) k = nth_error (pr_tasks (wd_process w)) k)
    /\ pr_rexecutors (wd_process w') = pr_rexecutors (wd_process w) /\ pr_cell (wd_process w') = pr_cell (wd_process w).
Proof.
  intros Sc Zn utc up show hash p es w i t H Ht Hs Hl.
  destruct (task_ends utc up show hash p es w i t H Ht Hs Hl) as [es' [w' [t' [R [[t0 [N0 O]] [[A1 [A2 [A3 [A4 A5]]]] [N D]]]]]]].
  assert (t0 = t) as -> by congruence. destruct (A5 t t' Ht N) as [_ [_ P]]. exists es', w', t'. auto 10.
Qed.
Print Assumptions C97_task.

(** From every state the program can let all tasks that have been told to stop come to their ends,
    without doing anything itself; the other tasks are left as they are. *)
Theorem C97_all : forall Schedule Zone (utc : Zone) (upcoming : Schedule -> Zone -> time -> option time) show hash p es w,
  world_run utc upcoming show hash p world_init es = Some w ->
  (forall t e l, In t (pr_tasks (wd_process w)) -> purpose t = RunsJobs e -> ex_max_concurrency (xe_consts e) = Some l -> 0 <= l) ->
  exists es' w', world_run utc upcoming show hash p w es' = Some w' /\ Forall (fun x => by_itself (snd x)) es'
    /\ length (pr_tasks (wd_process w')) = length (pr_tasks (wd_process w))
    /\ forall i t, nth_error (pr_tasks (wd_process w)) i = Some t ->
       exists t', nth_error (pr_tasks (wd_process w')) i = Some t' /\ purpose t' = purpose t
         /\ (shut (ta_token t) (program es) -> ended t' \/ died t')
         /\ (~ shut (ta_token t) (program es) -> t' = t).
Proof.
  intros Sc Zn utc up show hash p es w H Hl.
  destruct (all_end utc up show hash p (length (pr_tasks (wd_process w))) es w H) as [es' [w' [R [B [L D]]]]].
  - intros t Ht e l. apply Hl, Ht.
  - exists es', w'. do 3 (split; [assumption|]). intros i t Ht. destruct (D i t Ht) as [t' [N [_ [P [E U]]]]]. exists t'. do 2 (split; [assumption|]).
    split; [apply E; apply nth_error_Some; congruence|]. intro K. apply U. auto.
Qed.
Print Assumptions C97_all.

(** In the evening the push worker is still waiting for its report, and the cron executor is resting. *)
Example C97_example : exists w,
  vrun world_init evening = Some w
  /\ forallb (fun t => match ta_body t with BWorker _ wk => match w_life wk with Working => false | _ => true end
                       | BCron _ _ _ _ k | BPruner _ _ k => match tk_phase k with Stopped | Crashed => true | _ => false end end) (pr_tasks (wd_process w)) = false
  /\ (forall t, In t (pr_tasks (wd_process w)) -> shut (ta_token t) (program evening))
  /\ (forall t e l, In t (pr_tasks (wd_process w)) -> purpose t = RunsJobs e -> ex_max_concurrency (xe_consts e) = Some l -> 0 <= l).
Proof.
  eexists. split; [vm_compute; reflexivity|]. split; [reflexivity|]. split.
  - intros t Ht. exists 1200, (AShutdown (ta_token t)). cbn in Ht. destruct Ht as [<-|[<-|[<-|[]]]]; (split; [cbn; auto 10|left; reflexivity]).
  - intros t e l Ht Hp. cbn in Ht. destruct Ht as [<-|[<-|[<-|[]]]]; try discriminate; injection Hp as <-; cbn; intro E; try discriminate; injection E as <-; lia.
Qed.

(** * C98 What is due can be done *)

(** A worker that has room for a job can, by its own steps alone and from any time [T] on, run and
    complete every job of its executor that was due at [T], wherever its stream is; no other job, task
    or backend is touched, and what the worker was doing is left as it was. *)
Theorem C98_worker : forall Schedule Zone (utc : Zone) (upcoming : Schedule -> Zone -> time -> option time) show hash p es w i t e wk s T,
  world_run utc upcoming show hash p world_init es = Some w ->
  nth_error (pr_tasks (wd_process w)) i = Some t -> ta_body t = BWorker e wk -> has_room e wk ->
  nth_error (wd_stores w) (ta_backend t) = Some s -> workable e s ->
  exists es' w' s' wk' done, world_run utc upcoming show hash p w es' = Some w'
    /\ Forall (fun x => own (ta_backend t) i (snd x) /\ T <= fst x) es'
    /\ nth_error (wd_stores w') (ta_backend t) = Some s'
    /\ Forall2 (fun x y => kj_key y = kj_key x /\
         let due_job := waiting (kj_job x) /\ j_executor (kj_job x) = ex_name (xe_consts e) /\ j_scheduled_at (kj_job x) <= T in
         (due_job -> exists t1 t2, T <= t1 <= t2 /\ kj_job y = after_complete t2 (after_hand_out t1 (kj_job x)))
         /\ (~ due_job -> kj_job y = kj_job x)) (m_jobs (c_mem s)) (m_jobs (c_mem s'))
    /\ c_calls s' = c_calls s ++ map (fun id => mk_call (OpComplete id) (PcDone (RUnit (Ok tt))) None) done
    /\ nth_error (pr_tasks (wd_process w')) i = Some (mk_task (ta_backend t) (ta_token t) (BWorker e wk')) /\ w_flights wk' = w_flights wk
    /\ (forall k, k <> i -> nth_error (pr_tasks (wd_process w')) k = nth_error (pr_tasks (wd_process w)) k)
    /\ (forall b, b <> ta_backend t -> nth_error (wd_stores w') b = nth_error (wd_stores w) b).
Proof.
  intros Sc Zn utc up show hash p es w i t e wk s T H Ht Eb Hr Hs Hw.
  destruct (work_thm utc up show hash p T es w i t e wk s H Ht Eb Hr Hs Hw) as [es' [w' [s' [wk' [done Q]]]]].
  destruct Q as [Q1 [Q2 [Q3 [Q4 [Q5 [Q6 [_ [Q7 [Q8 [_ [Q9 [Q10 Q11]]]]]]]]]]]].
  exists es', w', s', wk', done. split; [exact Q1|]. split.
  { unfold owns, late in *. rewrite Forall_forall in *. auto. }
  split; [exact Q8|]. split; [|split; [exact Q9|split; [exact Q6|split; [exact Q7|split; [exact (proj1 (proj2 (proj2 (proj2 Q4))))|exact Q5]]]]].
  revert Q11. clear -Q10. induction Q10 as [|x y l l' Hxy _ IH]; intro N; constructor; [|apply IH; intros z Hz; apply N; right; exact Hz].
  specialize (N y (or_introl eq_refl)). destruct Hxy as [->|[P [t1 [t2 [Ht ->]]]]]; cbn zeta; (split; [reflexivity|]); split; intro Hd.
  - destruct (N Hd).
  - reflexivity.
  - exists t1, t2. auto.
  - destruct (Hd P).
Qed.
Print Assumptions C98_worker.

(** So can all the workers of a program: then no job that was due waits for an executor that has such
    a worker; the jobs are those there were, each untouched or, if it was due, run and completed. *)
Theorem C98_all : forall Schedule Zone (utc : Zone) (upcoming : Schedule -> Zone -> time -> option time) show hash p es w T,
  world_run utc upcoming show hash p world_init es = Some w ->
  (forall i t e wk s, nth_error (pr_tasks (wd_process w)) i = Some t -> ta_body t = BWorker e wk -> has_room e wk ->
     nth_error (wd_stores w) (ta_backend t) = Some s -> workable e s) ->
  exists es' w', world_run utc upcoming show hash p w es' = Some w'
    /\ Forall (fun x => by_itself (snd x) /\ T <= fst x) es'
    /\ length (wd_stores w') = length (wd_stores w) /\ length (pr_tasks (wd_process w')) = length (pr_tasks (wd_process w))
    /\ (forall b s, nth_error (wd_stores w) b = Some s -> exists s', nth_error (wd_stores w') b = Some s'
           /\ Forall2 (fun x y => kj_key y = kj_key x /\
                (kj_job y = kj_job x
                 \/ (waiting (kj_job x) /\ j_scheduled_at (kj_job x) <= T
                     /\ exists t1 t2, T <= t1 <= t2 /\ kj_job y = after_complete t2 (after_hand_out t1 (kj_job x)))))
                (m_jobs (c_mem s)) (m_jobs (c_mem s')))
    /\ (forall i t e wk s' j, nth_error (pr_tasks (wd_process w)) i = Some t -> ta_body t = BWorker e wk -> has_room e wk ->
         nth_error (wd_stores w') (ta_backend t) = Some s' -> In j (jobs_of (c_mem s')) -> waiting j ->
         j_executor j = ex_name (xe_consts e) -> T < j_scheduled_at j).
Proof.
  intros Sc Zn utc up show hash p es w T H Hw.
  destruct (all_work utc up show hash p T es w H Hw (length (pr_tasks (wd_process w)))) as [es' [w' Q]].
  destruct Q as [Q1 [Q2 [Q3 [_ [_ [Q6 [Q7 [_ [Q9 Q10]]]]]]]]].
  exists es', w'. split; [exact Q1|]. split; [unfold late in *; rewrite Forall_forall in *; auto|]. split; [exact Q7|]. split; [exact Q6|]. split.
  - intros b s Hs. destruct (Q9 b s Hs) as [s' [done [A1 [_ [_ A2]]]]]. exists s'. split; [exact A1|].
    clear -A2. induction A2 as [|x y l l' Hxy _ IH]; constructor; [|exact IH].
    destruct Hxy as [ex [->|[[P1 [_ P2]] [t1 [t2 [Ht ->]]]]]]; (split; [reflexivity|]); [left; reflexivity|right]. do 2 (split; [assumption|]). exists t1, t2. auto.
  - intros i t e wk s' j Ht Eb Hr Hs' Hj Hwj Hx. unfold jobs_of in Hj. apply in_map_iff in Hj. destruct Hj as [x [<- Hi]].
    destruct (Z.lt_ge_cases T (j_scheduled_at (kj_job x))) as [|Hle]; [assumption|]. exfalso.
    assert (Hlt : (i < length (pr_tasks (wd_process w)))%nat) by (apply nth_error_Some; rewrite Ht; discriminate).
    apply (Q10 i t e wk s' Hlt Ht Eb Hr Hs' x Hi). split; [exact Hwj|]. split; [exact Hx|exact Hle].
Qed.
Print Assumptions C98_all.

(** Two executors on one backend: the mail worker's stream has gone to sleep, the push worker has a
    job in hand; then four more jobs come in, one of them for much later. *)
Definition backlog : list (time * world_event Z Z) :=
  [ (1, VStore); (2, VApp (ANew 0)); (3, VApp (AExecutor 0 mail_executor)); (4, VApp (AExecutor 0 push_executor));
    (5, VPoll 0); (5, VPoll 0); (5, VPoll 0); (5, VPoll 0);
    (6, VCall 0 (OpEnqueue (req push 0 6))); (6, VRun 0 0); (6, VRun 0 0); (6, VRun 0 0); (6, VRun 0 0);
    (7, VPoll 1); (7, VPoll 1); (7, VPoll 1); (8, VStart 1 0);
    (10, VCall 0 (OpEnqueue (req mail 0 10))); (10, VRun 0 1); (10, VRun 0 1); (10, VRun 0 1);
    (11, VCall 0 (OpEnqueue (req push 1 20))); (11, VRun 0 2); (11, VRun 0 2); (11, VRun 0 2); (11, VRun 0 2);
    (12, VCall 0 (OpEnqueue (req mail 2 12))); (12, VRun 0 3); (12, VRun 0 3); (12, VRun 0 3); (12, VRun 0 3);
    (13, VCall 0 (OpEnqueue (req mail 0 900000000000))); (13, VRun 0 4); (13, VRun 0 4); (13, VRun 0 4); (13, VRun 0 4) ].
Example C98_example : exists w s,
  vrun world_init backlog = Some w /\ nth_error (wd_stores w) 0 = Some s
  /\ map (fun j => (j_id j, j_executor j, j_status j, j_scheduled_at j)) (jobs_of (c_mem s))
     = [ (0, push, Executing, 6); (1, mail, Scheduled, 10); (2, push, Scheduled, 20); (3, mail, Scheduled, 12); (4, mail, Scheduled, 900000000000) ]
  /\ length (c_streams s) = 2%nat /\ (exists t r sl d, nth_error (c_streams s) 0 = Some (SWait t r sl d))
  /\ (forall i t e wk s', nth_error (pr_tasks (wd_process w)) i = Some t -> ta_body t = BWorker e wk ->
       has_room e wk /\ (nth_error (wd_stores w) (ta_backend t) = Some s' -> workable e s')).
Proof.
  do 2 eexists. split; [vm_compute; reflexivity|]. split; [reflexivity|]. split; [reflexivity|]. split; [reflexivity|].
  split; [do 4 eexists; reflexivity|].
  intros i t e wk s' Ht Eb. destruct i as [|[|i]]; [| |destruct i; discriminate Ht]; injection Ht as <-; injection Eb as <- <-.
  all: split; [repeat split; cbn; auto; lia|]; intro Hs; injection Hs as <-; split; [reflexivity|]; split; [cbn; lia|].
  all: intros j Hj Hw Hx now; cbn in Hj; repeat destruct Hj as [<-|Hj]; try (destruct Hw; discriminate); try discriminate Hx; try destruct Hj;
    (do 3 eexists; split; [reflexivity|]; split; reflexivity).
Qed.
