(** Properties of processes that share a Postgres database (C99-C105). *)
From Coq Require Import Lia Permutation.
From Verif Require Import Base Chrono Types Query Memory MemSpec MemConc PgRow Pg PgSpec PgProofs FxHash PgConc PgConcSpec PgListen PgListenSpec Codec Builder
  Runner RunnerSpec Ticker Pruner Samples App AppSpec World WorldSpec Fleet FleetSpec FleetThms FleetOnce WorldLive FleetLive FleetWork PropsRunner PropsApp PropsWorld PropsPg PropsPgConc.

Notation frun := (fleet_run (Schedule := Z) (Zone := Z) 0 every shown key_of fx_identifier).
Notation fstep := (fleet_step (Schedule := Z) (Zone := Z) 0 every shown key_of fx_identifier).

(** Two processes with a mail executor each, the second with a cron executor too.  A mail job is
    enqueued; both workers look for it, the first gets it, runs it and reports it done; the cron executor
    sends a request, whose job is taken. *)
Definition runs (i n : nat) (now : Z) : list (time * fleet_event Z Z) := repeat (now * ms, FRun i 0) n.
Definition looks (g n : nat) (now : Z) : list (time * fleet_event Z Z) := repeat (now * ms, FPoll g) n.
Definition start : list (time * fleet_event Z Z) :=
  [ (1 * ms, FNode); (1 * ms, FNode); (2 * ms, FOpen 0); (2 * ms, FOpen 1); (3 * ms, FApp 0 (ANew 0)); (3 * ms, FApp 1 (ANew 1));
    (4 * ms, FApp 0 (AExecutor 0 mail_executor)); (4 * ms, FApp 1 (AExecutor 0 mail_executor));
    (4 * ms, FApp 1 (ACron 0 push_executor (1000 * ms) "news"%string));
    (5 * ms, FCall (OpEnqueue (req mail 0 (10 * ms)))) ] ++ runs 0 4 6 ++ [(7 * ms, FDeliver 0); (7 * ms, FDeliver 1)].
Definition taken : list (time * fleet_event Z Z) :=
  start ++ looks 0 3 20 ++ looks 1 3 20 ++ runs 1 3 21 ++ runs 2 3 21 ++ looks 0 1 22 ++ looks 1 1 22 ++ [(23 * ms, FStart 0 0)].
Definition ended_job : list (time * fleet_event Z Z) :=
  taken ++ [(30 * ms, FEnd 0 0 (31 * ms) (32 * ms) ODone); (33 * ms, FCompute 2 (33 * ms) (34 * ms))].
Definition woken : list (time * fleet_event Z Z) :=
  ended_job ++ runs 3 2 35 ++ [(36 * ms, FAnswer 0 0); (1000 * ms, FWake 2 (1000 * ms))].
Definition whole_day : list (time * fleet_event Z Z) :=
  woken ++ runs 4 7 1001 ++ [(1002 * ms, FActed 2 (1002 * ms)); (1003 * ms, FDeliver 1)]
  ++ looks 3 3 1004 ++ runs 5 3 1005 ++ looks 3 1 1006.

(** * C99 A fleet is its parts, put together *)

(** Whatever happens, the database, its listeners and the streams go through a history of PgListen.v;
    each process goes through a history of the [Rexecutor] object, in which the calls of lib.rs are its
    program's; each task works on a backend that its own process opened; and every task of every process
    has one number in the fleet.  So all that is proved of the parts (C53-C76, C78-C83, C87) holds in a
    fleet. *)
Theorem C99_parts : forall Schedule Zone (utc : Zone) (upcoming : Schedule -> Zone -> time -> option time) show hash ident t0 es w,
  fleet_run utc upcoming show hash ident (fleet_init t0) es = Some w ->
  fl_net w = nrun ident (n_found t0) (net_labels (fl_log w))
  /\ fl_homes w = connected es
  /\ length (fl_nodes w) = length (filter (fun x => match snd x with FNode => true | _ => false end) es)
  /\ (forall q s, nth_error (fl_nodes w) q = Some s -> exists pes rs,
        app_run utc upcoming show process_init pes = Some (s, rs) /\ pes = node_events q (fl_log w) /\ not_of_tasks pes = program_of q es)
  /\ (forall q s t, nth_error (fl_nodes w) q = Some s -> In t (pr_tasks s) -> nth_error (connected es) (ta_backend t) = Some q)
  /\ NoDup (fl_places w)
  /\ (forall q i, In (q, i) (fl_places w) <-> exists s t, nth_error (fl_nodes w) q = Some s /\ nth_error (pr_tasks s) i = Some t).
Proof. intros Sc Zn utc up show hash ident t0 es w H. exact (parts_thm utc up show hash ident t0 es w H). Qed.
Print Assumptions C99_parts.

(** What each event does to the processes, the database and the streams. *)
Theorem C99_events : forall Schedule Zone (utc : Zone) (upcoming : Schedule -> Zone -> time -> option time) show hash ident now w ev w',
  fleet_step utc upcoming show hash ident now w ev = Some w' ->
  exists added, fl_log w' = fl_log w ++ added /\
  match ev with
  | FNode => added = [] /\ fl_nodes w' = fl_nodes w ++ [process_init]
  | FOpen q => (q < length (fl_nodes w))%nat /\ added = [(now, OnNet NOpen)]
  | FApp q a =>
      match a with AWorker _ _ | ATick _ _ => False | ANew c => nth_error (fl_homes w) c = Some q | _ => True end
      /\ added = (now, OnNode q a) :: flat_map (fun t => match ta_body t with
           | BWorker e _ => [(now, OnNet (NSubscribe (ta_backend t) (ex_name (xe_consts e))))] | _ => [] end)
           (skipn (length (tasks_of q w)) (tasks_of q w'))
  | FCall o => match o with OpLoad _ | OpSubscribe _ => False | _ => True end /\ added = [(now, OnNet (NDb (QCall o)))]
  | FRun i pick => added = [(now, OnNet (NDb (QRun i now pick)))]
  | FAbort i e => added = [(now, OnNet (NDb (QAbort i e)))]
  | FDeliver c => added = [(now, OnNet (NDeliver c))]
  | FLost c => added = [(now, OnNet (NLost c))]
  | FClosed c => added = [(now, OnNet (NClosed c))]
  | FPoll g => exists q i k, nth_error (fl_places w) g = Some (q, i) /\ nth_error (fl_streams w) g = Some (Some k)
      /\ added = (now, OnNet (NStream k now))
           :: match option_map s_phase (nth_error (n_streams (fst (nstep ident (fl_net w) (NStream k now)))) k) with
              | Some (PYield (Ok j)) => [(now, OnNode q (AWorker i (WTake (MJob j))))]
              | Some (PYield (Err err)) => [(now, OnNode q (AWorker i (WTake (MError err))))]
              | _ => []
              end
  | FRecv g => exists k, nth_error (fl_streams w) g = Some (Some k) /\ added = [(now, OnNet (NRecv k))]
  | FError g => exists q i k, nth_error (fl_places w) g = Some (q, i) /\ nth_error (fl_streams w) g = Some (Some k)
      /\ option_map s_phase (nth_error (n_streams (fl_net w)) k) = Some PCheck
      /\ added = [(now, OnNet (NError k)); (now, OnNode q (AWorker i (WTake (MError BadState))))]
  | FClose g => exists q i, nth_error (fl_places w) g = Some (q, i) /\ added = [(now, OnNode q (AWorker i WClose))]
  | FStart g n => exists q i, nth_error (fl_places w) g = Some (q, i) /\ added = [(now, OnNode q (AWorker i (WStart n)))]
  | FEnd g n n1 n2 o => exists q i, nth_error (fl_places w) g = Some (q, i)
      /\ exists os, added = (now, OnNode q (AWorker i (WEnd n n1 n2 o))) :: map (fun op => (now, OnNet (NDb (QCall op)))) os /\ (length os <= 1)%nat
  | FAnswer g n => exists q i r, nth_error (fl_places w) g = Some (q, i) /\ added = [(now, OnNode q (AWorker i (WReported n r)))]
  | FFinish g => exists q i, nth_error (fl_places w) g = Some (q, i) /\ added = [(now, OnNode q (AWorker i WFinish))]
  | FCompute g c0 c1 => exists q i, nth_error (fl_places w) g = Some (q, i) /\ added = [(now, OnNode q (ATick i (Compute c0 c1)))]
  | FWake g c => exists q i, nth_error (fl_places w) g = Some (q, i)
      /\ exists os, added = (now, OnNode q (ATick i (Wake c))) :: map (fun o => (now, OnNet (NDb (QCall o)))) os
  | FLeave g => exists q i, nth_error (fl_places w) g = Some (q, i) /\ added = [(now, OnNode q (ATick i Cancel))]
  | FActed g c => exists q i panicked, nth_error (fl_places w) g = Some (q, i) /\ added = [(now, OnNode q (ATick i (Acted c panicked)))]
  | FRested g c => exists q i, nth_error (fl_places w) g = Some (q, i) /\ added = [(now, OnNode q (ATick i (Rested c)))]
  end.
Proof. intros Sc Zn utc up show hash ident. exact (events_thm utc up show hash ident). Qed.
Print Assumptions C99_events.

(** What has happened, in short. *)
Definition crew_ids (w : fleet Z Z) : list (list Z) := map (fun t => map j_id (takings t)) (crew w).
Definition statuses (w : fleet Z Z) : list (Z * string) := map (fun r => (r_id r, r_status r)) (t_rows (q_tbl (n_db (fl_net w)))).
Example C99_example : exists w,
  frun (fleet_init tbl_init) whole_day = Some w /\ length (fl_nodes w) = 2%nat /\ fl_homes w = [0; 1]%nat
  /\ fl_places w = [(0, 0); (1, 0); (1, 1); (1, 2)]%nat
  /\ crew_ids w = [[1]; []; []; [2]] /\ statuses w = [(1, "complete"%string); (2, "executing"%string)]
  /\ length (net_labels (fl_log w)) = 45%nat /\ length (node_events 0 (fl_log w)) = 6%nat.
Proof. eexists. split; [vm_compute; reflexivity|]. vm_compute. auto 10. Qed.
Example C99_example_step : exists w w' q, frun (fleet_init tbl_init) (start ++ looks 0 3 20 ++ runs 1 3 21) = Some w
  /\ fstep (22 * ms) w (FPoll 0) = Some w' /\ length (fl_log w') = S (S (length (fl_log w)))
  /\ frun (fleet_init tbl_init) (firstn 5 start) = Some q /\ fstep (3 * ms) q (FApp 0 (ANew 1)) = None.
Proof.
  do 3 eexists. split; [vm_compute; reflexivity|]. split; [vm_compute; reflexivity|]. split; [vm_compute; reflexivity|].
  split; vm_compute; reflexivity.
Qed.

(** * C100 Jobs go from the database to the workers of all processes *)

(** Each job the streams have given out has been taken by exactly one worker, each time. *)
Theorem C100_given : forall Schedule Zone (utc : Zone) (upcoming : Schedule -> Zone -> time -> option time) show hash ident t0 es w,
  fleet_run utc upcoming show hash ident (fleet_init t0) es = Some w ->
  Permutation (yielded (ntrace ident (n_found t0) (net_labels (fl_log w)))) (flat_map takings (crew w)).
Proof. intros Sc Zn utc up show hash ident t0 es w H. exact (given_thm utc up show hash ident t0 es w H). Qed.
Print Assumptions C100_given.

(** Each worker has a stream of its own, on the backend of its [Rexecutor] and for its executor; it has
    taken, in order, exactly the jobs that stream was given. *)
Theorem C100_stream : forall Schedule Zone (utc : Zone) (upcoming : Schedule -> Zone -> time -> option time) show hash ident t0 es w g t e wk,
  fleet_run utc upcoming show hash ident (fleet_init t0) es = Some w ->
  task_of g w = Some t -> ta_body t = BWorker e wk ->
  exists k st, nth_error (fl_streams w) g = Some (Some k) /\ nth_error (n_streams (fl_net w)) k = Some st
    /\ s_client st = ta_backend t /\ s_executor st = ex_name (xe_consts e)
    /\ jobs_taken wk = yields k (ntrace ident (n_found t0) (net_labels (fl_log w)))
    /\ (forall g', nth_error (fl_streams w) g' = Some (Some k) -> g' = g).
Proof. intros Sc Zn utc up show hash ident t0 es w g t e wk H. exact (stream_thm utc up show hash ident t0 es w g t e wk H). Qed.
Print Assumptions C100_stream.

(** All jobs a worker has taken are its executor's. *)
Theorem C100_executor : forall Schedule Zone (utc : Zone) (upcoming : Schedule -> Zone -> time -> option time) show hash ident t0 es w t e wk j,
  sound_table t0 -> fleet_run utc upcoming show hash ident (fleet_init t0) es = Some w ->
  In t (crew w) -> ta_body t = BWorker e wk -> In j (jobs_taken wk) -> j_executor j = ex_name (xe_consts e).
Proof. intros Sc Zn utc up show hash ident t0 es w t e wk j Hs H. exact (executor_thm utc up show hash ident t0 es w t e wk j Hs H). Qed.
Print Assumptions C100_executor.

(** Every stream belongs to a worker. *)
Theorem C100_no_stray_stream : forall Schedule Zone (utc : Zone) (upcoming : Schedule -> Zone -> time -> option time) show hash ident t0 es w k st,
  fleet_run utc upcoming show hash ident (fleet_init t0) es = Some w -> nth_error (n_streams (fl_net w)) k = Some st ->
  exists g t e wk, task_of g w = Some t /\ ta_body t = BWorker e wk /\ nth_error (fl_streams w) g = Some (Some k) /\ s_client st = ta_backend t.
Proof. intros Sc Zn utc up show hash ident t0 es w k st H. exact (streams_thm utc up show hash ident t0 es w k st H). Qed.
Print Assumptions C100_no_stray_stream.

(** A worker's stream is polled only while the worker lives, has not been told to stop, and has fewer
    jobs in progress than its limit; and then it can be. *)
Theorem C100_poll : forall Schedule Zone (utc : Zone) (upcoming : Schedule -> Zone -> time -> option time) show hash ident t0 es w g t e wk now,
  fleet_run utc upcoming show hash ident (fleet_init t0) es = Some w ->
  task_of g w = Some t -> ta_body t = BWorker e wk ->
  (exists w', fleet_step utc upcoming show hash ident now w (FPoll g) = Some w')
  <-> w_life wk = Working /\ w_transit wk = None /\ w_open wk = true /\ w_cancelled wk = false
      /\ match ex_max_concurrency (xe_consts e) with
         | Some l => l = 0 \/ Z.of_nat (length (w_flights wk)) < l
         | None => True
         end.
Proof. intros Sc Zn utc up show hash ident t0 es w g t e wk now H. exact (poll_thm utc up show hash ident t0 es w g t e wk now H). Qed.
Print Assumptions C100_poll.

Example C100_example : exists w t e wk,
  sound_table tbl_init /\ frun (fleet_init tbl_init) whole_day = Some w /\ task_of 3 w = Some t /\ ta_body t = BWorker e wk
  /\ In t (crew w) /\ map j_id (jobs_taken wk) = [2] /\ nth_error (fl_streams w) 3 = Some (Some 2%nat)
  /\ map j_id (yielded (ntrace fx_identifier (n_found tbl_init) (net_labels (fl_log w)))) = [1; 2].
Proof.
  do 4 eexists. split; [apply sound_init|]. split; [vm_compute; reflexivity|]. split; [reflexivity|]. split; [reflexivity|].
  split; [cbn; auto|]. vm_compute. auto.
Qed.
(** While its only slot is taken, the first mail worker's stream is not polled; the other one's is. *)
Example C100_example_limit : exists w w' w'',
  frun (fleet_init tbl_init) taken = Some w /\ fstep (40 * ms) w (FPoll 0) = None /\ fstep (40 * ms) w (FPoll 1) = Some w'
  /\ frun (fleet_init tbl_init) whole_day = Some w'' /\ exists w3, fstep (2000 * ms) w'' (FPoll 0) = Some w3.
Proof.
  do 3 eexists. split; [vm_compute; reflexivity|]. split; [vm_compute; reflexivity|]. split; [vm_compute; reflexivity|].
  split; [vm_compute; reflexivity|]. eexists. vm_compute. reflexivity.
Qed.

(** * C101 Calls go from the tasks of all processes to the database *)

(** The backend calls each task has made are those it has reason to make, in that order, no more and no
    less: a worker its reports, a cron executor one request for each instant it fired at, a pruner all
    its rules at each instant.  Each call is made by one task, once. *)
Theorem C101_made : forall Schedule Zone (utc : Zone) (upcoming : Schedule -> Zone -> time -> option time) show hash ident t0 es w,
  fleet_run utc upcoming show hash ident (fleet_init t0) es = Some w ->
  (forall g t, task_of g w = Some t -> calls_by w g = map (fun x => (fst x, Some (snd x))) (owed hash (ta_body t)))
  /\ (forall n1 n2 a1 a2, nth_error (fl_asks w) n1 = Some a1 -> nth_error (fl_asks w) n2 = Some a2 -> ak_call a1 = ak_call a2 -> n1 = n2).
Proof.
  intros Sc Zn utc up show hash ident t0 es w H. split.
  - intros g t. exact (made_thm utc up show hash ident t0 es w g t H).
  - intros n1 n2 a1 a2. exact (asked_once utc up show hash ident t0 es w n1 n2 a1 a2 H).
Qed.
Print Assumptions C101_made.

(** The calls on the database are those of the tasks, those the programs made themselves, and the loads
    of the streams. *)
Theorem C101_calls : forall Schedule Zone (utc : Zone) (upcoming : Schedule -> Zone -> time -> option time) show hash ident t0 es w,
  fleet_run utc upcoming show hash ident (fleet_init t0) es = Some w ->
  Permutation (filter callable (map qc_op (q_calls (n_db (fl_net w))))) (called es ++ flat_map (dues hash) (crew w)).
Proof. intros Sc Zn utc up show hash ident t0 es w H. exact (calls_thm utc up show hash ident t0 es w H). Qed.
Print Assumptions C101_calls.

(** A worker that has reported a job is told the result of that very call, as soon as there is one. *)
Theorem C101_answer : forall Schedule Zone (utc : Zone) (upcoming : Schedule -> Zone -> time -> option time) show hash ident t0 es w g t e wk n op,
  sound_table t0 -> fleet_run utc upcoming show hash ident (fleet_init t0) es = Some w ->
  task_of g w = Some t -> ta_body t = BWorker e wk -> flight_of n (w_flights wk) = Some (FReporting op) ->
  exists a pc, filter (fun a => Nat.eqb (ak_task a) g && Nat.eqb (ak_turn a) n) (fl_asks w) = [a]
    /\ nth_error (q_calls (n_db (fl_net w))) (ak_call a) = Some (mk_qcall op pc)
    /\ forall now, match pc with
       | QDone r => exists r' w' wk', r = RUnit r' /\ fleet_step utc upcoming show hash ident now w (FAnswer g n) = Some w'
           /\ worker_step (xe_codec e) (xe_fns e) show (ex_max_concurrency (xe_consts e)) wk (WReported n r') = Some wk'
           /\ task_of g w' = Some (mk_task (ta_backend t) (ta_token t) (BWorker e wk'))
           /\ fl_net w' = fl_net w
       | _ => fleet_step utc upcoming show hash ident now w (FAnswer g n) = None
       end.
Proof. intros Sc Zn utc up show hash ident t0 es w g t e wk n op Hs H. exact (answer_thm utc up show hash ident t0 es w g t e wk n op Hs H). Qed.
Print Assumptions C101_answer.

(** A loop comes back from acting only when all calls of its latest firing are done without a panic,
    or one has panicked - and then it dies. *)
Theorem C101_acted : forall Schedule Zone (utc : Zone) (upcoming : Schedule -> Zone -> time -> option time) show hash ident t0 es w g t c now w',
  fleet_run utc upcoming show hash ident (fleet_init t0) es = Some w ->
  task_of g w = Some t -> fleet_step utc upcoming show hash ident now w (FActed g c) = Some w' ->
  exists cs q i, nth_error (fl_places w) g = Some (q, i)
    /\ map qc_op cs = map snd (filter (fun x => Nat.eqb (fst x) (length (firings (ta_body t)))) (owed hash (ta_body t)))
    /\ (forall x, In x cs -> In x (q_calls (n_db (fl_net w))))
    /\ ((exists x, In x cs /\ (qc_pc x = QDone (RId Panic) \/ qc_pc x = QDone (RUnit Panic)))
          /\ fl_log w' = fl_log w ++ [(now, OnNode q (ATick i (Acted c true)))]
        \/ (forall x, In x cs -> exists r, qc_pc x = QDone r /\ r <> RId Panic /\ r <> RUnit Panic)
          /\ fl_log w' = fl_log w ++ [(now, OnNode q (ATick i (Acted c false)))]).
Proof. intros Sc Zn utc up show hash ident t0 es w g t c now w' H. exact (acted_thm utc up show hash ident t0 es w g t c now w' H). Qed.
Print Assumptions C101_acted.

Example C101_example : exists w,
  frun (fleet_init tbl_init) whole_day = Some w /\ calls_by w 0 = [(0%nat, Some (OpComplete 1))]
  /\ map fst (calls_by w 2) = [1%nat] /\ calls_by w 3 = [] /\ fl_asks w = [mk_ask 0 0 3; mk_ask 2 1 4]
  /\ map (fun t => length (dues key_of t)) (crew w) = [1; 0; 1; 0]%nat
  /\ called whole_day = [OpEnqueue (req mail 0 (10 * ms))].
Proof. eexists. split; [vm_compute; reflexivity|]. vm_compute. auto 10. Qed.
(** The report is answered once it is carried out, not before; the cron executor waits for its request. *)
Example C101_example_answer : exists w w1 t e wk,
  sound_table tbl_init /\ frun (fleet_init tbl_init) ended_job = Some w /\ task_of 0 w = Some t /\ ta_body t = BWorker e wk
  /\ flight_of 0 (w_flights wk) = Some (FReporting (OpComplete 1)) /\ fstep (35 * ms) w (FAnswer 0 0) = None
  /\ frun w (runs 3 2 35) = Some w1 /\ exists w2, fstep (36 * ms) w1 (FAnswer 0 0) = Some w2.
Proof.
  do 5 eexists. split; [apply sound_init|]. split; [vm_compute; reflexivity|]. split; [reflexivity|]. split; [reflexivity|]. split; [reflexivity|].
  split; [vm_compute; reflexivity|]. split; [vm_compute; reflexivity|]. eexists. vm_compute. reflexivity.
Qed.
Example C101_example_acted :
  let tells es := match frun (fleet_init tbl_init) es with Some _ => true | None => false end in
  tells woken = true /\ tells (woken ++ [(1001 * ms, FActed 2 (1001 * ms))]) = false
  /\ tells (woken ++ runs 4 7 1001) = true /\ tells (woken ++ runs 4 7 1001 ++ [(1002 * ms, FActed 2 (1002 * ms))]) = true.
Proof. vm_compute. auto. Qed.

(** * C102 No job is run by two workers of the fleet at once *)

(** A job is held by a worker from when it is taken until it is reported on.  It has never more holders
    in all processes together than one, plus one for each retry, snooze or rerun of it that a program
    called itself. *)
Theorem C102_holders : forall Schedule Zone (utc : Zone) (upcoming : Schedule -> Zone -> time -> option time) show hash ident t0 es w id,
  sound_table t0 -> fleet_run utc upcoming show hash ident (fleet_init t0) es = Some w ->
  (length (filter (fun j => Z.eqb (j_id j) id) (flat_map holdings (crew w))) <= 1 + length (filter (again id) (called es)))%nat.
Proof. intros Sc Zn utc up show hash ident t0 es w id Hs H. exact (holders_thm utc up show hash ident t0 es w id Hs H). Qed.
Print Assumptions C102_holders.

(** So if the programs leave that to the workers, no job is at two workers at once: whatever fails,
    whichever answers are lost, however the processes take turns. *)
Theorem C102_exclusive : forall Schedule Zone (utc : Zone) (upcoming : Schedule -> Zone -> time -> option time) show hash ident t0 es w,
  sound_table t0 -> fleet_run utc upcoming show hash ident (fleet_init t0) es = Some w ->
  (forall o id, In o (called es) -> again id o = false) ->
  NoDup (map j_id (flat_map holdings (crew w))).
Proof. intros Sc Zn utc up show hash ident t0 es w Hs H. exact (exclusive_thm utc up show hash ident t0 es w Hs H). Qed.
Print Assumptions C102_exclusive.

(** In general it is not so: a program may rerun a job that is being run. *)
Definition rerun_running : list (time * fleet_event Z Z) :=
  taken ++ [(40 * ms, FCall (OpRerun 1))] ++ runs 3 2 41 ++ [(42 * ms, FDeliver 1); (42 * ms, FPoll 1); (42 * ms, FRecv 1)]
  ++ looks 1 3 43 ++ runs 4 3 44 ++ looks 1 1 45.
Theorem C102_exclusive_refuted : exists w,
  sound_table tbl_init /\ frun (fleet_init tbl_init) rerun_running = Some w
  /\ map (fun t => map j_id (holdings t)) (crew w) = [[1]; [1]; []; []].
Proof. eexists. split; [apply sound_init|]. split; vm_compute; reflexivity. Qed.
Print Assumptions C102_exclusive_refuted.

(** A second mail job comes in: both workers have one. *)
Definition busy_fleet : list (time * fleet_event Z Z) :=
  taken ++ [(40 * ms, FCall (OpEnqueue (req mail 0 (39 * ms))))] ++ runs 3 4 41 ++ [(42 * ms, FDeliver 1); (42 * ms, FPoll 1); (42 * ms, FRecv 1)]
  ++ looks 1 3 43 ++ runs 4 3 44 ++ looks 1 1 45.
Example C102_example : exists w,
  sound_table tbl_init /\ frun (fleet_init tbl_init) busy_fleet = Some w /\ (forall o id, In o (called busy_fleet) -> again id o = false)
  /\ map (fun t => map j_id (holdings t)) (crew w) = [[1]; [2]; []; []].
Proof.
  eexists. split; [apply sound_init|]. split; [vm_compute; reflexivity|]. split; [|vm_compute; reflexivity].
  intros o id Ho. cbn in Ho. destruct Ho as [<-|[<-|[]]]; reflexivity.
Qed.

(** * C103 A task does not leave its calls behind *)

(** A call of a task has returned, or the task is still waiting for it - a worker for the answer to the
    report of that message, a loop for the calls of its latest firing -, or the task has died. *)
Theorem C103_waits : forall Schedule Zone (utc : Zone) (upcoming : Schedule -> Zone -> time -> option time) show hash ident t0 es w t a,
  fleet_run utc upcoming show hash ident (fleet_init t0) es = Some w ->
  task_of (ak_task a) w = Some t -> In a (fl_asks w) ->
  (exists x r, nth_error (q_calls (n_db (fl_net w))) (ak_call a) = Some x /\ qc_pc x = QDone r)
  \/ died t
  \/ match ta_body t with
     | BWorker _ wk => exists op, flight_of (ak_turn a) (w_flights wk) = Some (FReporting op)
     | BCron _ _ _ _ k | BPruner _ _ k => ak_turn a = length (tk_fired k) /\ exists next, tk_phase k = Acting next
     end.
Proof.
  intros Sc Zn utc up show hash ident t0 es w t a H Ht Ha. destruct (FleetLive.covered_thm utc up show hash ident t0 es w H a Ha) as [t' [H1 H2]].
  assert (t' = t) as -> by congruence. destruct H2 as [[H2|H2]|H2]; auto.
Qed.
Print Assumptions C103_waits.

(** So when a task has come to its end in an orderly way, all its reports, requests or prunes have been
    carried out, or have failed. *)
Theorem C103_ended : forall Schedule Zone (utc : Zone) (upcoming : Schedule -> Zone -> time -> option time) show hash ident t0 es w t a,
  fleet_run utc upcoming show hash ident (fleet_init t0) es = Some w ->
  task_of (ak_task a) w = Some t -> ended t -> In a (fl_asks w) ->
  exists x r, nth_error (q_calls (n_db (fl_net w))) (ak_call a) = Some x /\ qc_pc x = QDone r.
Proof.
  intros Sc Zn utc up show hash ident t0 es w t a H Ht He Ha.
  destruct (C103_waits _ _ utc up show hash ident t0 es w t a H Ht Ha) as [K|[K|K]]; [exact K|..]; exfalso; unfold ended, died in *.
  - destruct (ta_body t); congruence.
  - destruct (ta_body t) as [e wk|e sc z d k|sc cfg k] eqn:Eb; [|destruct K as [_ [n K]]; congruence..].
    destruct K as [op K]. destruct (flight_story utc up show hash ident t0 es w _ t e wk _ op H Ht Eb K) as [K' _]. congruence.
Qed.
Print Assumptions C103_ended.

(** Both programs shut down while the cron executor's request is being carried out: the first worker has
    ended, and the loop is waiting. *)
Definition closing : list (time * fleet_event Z Z) :=
  woken ++ [(1001 * ms, FApp 0 (AShutdown 0)); (1001 * ms, FApp 1 (AShutdown 0)); (1002 * ms, FClose 0); (1002 * ms, FFinish 0)] ++ runs 4 2 1003.
Example C103_example : exists w u v,
  frun (fleet_init tbl_init) closing = Some w /\ fl_asks w = [mk_ask 0 0 3; mk_ask 2 1 4]
  /\ task_of 0 w = Some u /\ ended u /\ task_of 2 w = Some v /\ ~ ended v
  /\ map (fun c => match qc_pc c with QDone _ => true | _ => false end) (q_calls (n_db (fl_net w))) = [true; true; true; true; false].
Proof.
  do 3 eexists. split; [vm_compute; reflexivity|]. split; [reflexivity|]. split; [reflexivity|]. split; [reflexivity|]. split; [reflexivity|].
  split; [discriminate|]. reflexivity.
Qed.

(** * C104 A shutdown can always be completed *)

(** A task whose [Rexecutor] has been shut down can come to its end by steps of its own and of the calls
    on the database, whatever it is doing and whatever the other processes are doing, and without anything
    else changing in any process.  All the outside world has to do is to end prunes that are in each
    other's way. *)
Theorem C104_task : forall Schedule Zone (utc : Zone) (upcoming : Schedule -> Zone -> time -> option time) show hash ident t0 es w g t q now,
  sound_table t0 -> fleet_run utc upcoming show hash ident (fleet_init t0) es = Some w ->
  task_of g w = Some t -> nth_error (connected es) (ta_backend t) = Some q -> shut (ta_token t) (program_of q es) ->
  (forall e l, purpose t = RunsJobs e -> ex_max_concurrency (xe_consts e) = Some l -> 0 <= l) ->
  exists es' w' t', fleet_run utc upcoming show hash ident w es' = Some w'
    /\ Forall (fun x => fst x = now /\ of_task g (n_db (fl_net w)) (snd x)) es'
    /\ task_of g w' = Some t' /\ (ended t' \/ died t') /\ purpose t' = purpose t
    /\ (forall k, k <> g -> task_of k w' = task_of k w)
    /\ fl_places w' = fl_places w
    /\ (forall k, option_map (fun s => (pr_rexecutors s, pr_cell s)) (nth_error (fl_nodes w') k)
                = option_map (fun s => (pr_rexecutors s, pr_cell s)) (nth_error (fl_nodes w) k)).
Proof.
  intros Sc Zn utc up show hash ident t0 es w g t q now Hs H Ht Hq Hsh Hl.
  destruct (task_stops utc up show hash ident t0 now es w g t q Hs H Ht Hq Hsh Hl) as [es' [w' [t' [[R O T [A1 A2 A3 A4 A5 A6 A7] _ _] [_ [N D]]]]]].
  destruct (A6 t t' Ht N) as [_ [_ P]]. exists es', w', t'. split; [exact R|]. split; [|auto 10].
  apply Forall_forall. intros x Hx. split; [exact (proj1 (Forall_forall _ _) T x Hx)|exact (proj1 (Forall_forall _ _) O x Hx)].
Qed.
Print Assumptions C104_task.

(** From every state the fleet can let all tasks that have been told to stop come to their ends, and all
    calls be carried out, without the programs doing anything; the other tasks are left as they are. *)
Theorem C104_all : forall Schedule Zone (utc : Zone) (upcoming : Schedule -> Zone -> time -> option time) show hash ident t0 es w now,
  sound_table t0 -> fleet_run utc upcoming show hash ident (fleet_init t0) es = Some w ->
  (forall g t e l, task_of g w = Some t -> purpose t = RunsJobs e -> ex_max_concurrency (xe_consts e) = Some l -> 0 <= l) ->
  exists es' w', fleet_run utc upcoming show hash ident w es' = Some w'
    /\ Forall (fun x => fst x = now /\ exists g, of_task g (n_db (fl_net w)) (snd x)) es'
    /\ all_finished (n_db (fl_net w'))
    /\ forall g t, task_of g w = Some t ->
       exists t', task_of g w' = Some t' /\ purpose t' = purpose t
         /\ forall q, nth_error (connected es) (ta_backend t) = Some q ->
            (shut (ta_token t) (program_of q es) -> ended t' \/ died t') /\ (~ shut (ta_token t) (program_of q es) -> t' = t).
Proof.
  intros Sc Zn utc up show hash ident t0 es w now Hs H Hl.
  destruct (FleetLive.all_end utc up show hash ident t0 now es w Hs H) as [es' [w' [R [B [T [_ [S D]]]]]]].
  - intros g t Ht e l. exact (Hl g t e l Ht).
  - exists es', w'. split; [exact R|]. split; [|split; [exact S|exact D]].
    apply Forall_forall. intros x Hx. split; [exact (proj1 (Forall_forall _ _) T x Hx)|exact (proj1 (Forall_forall _ _) B x Hx)].
Qed.
Print Assumptions C104_all.

(** While the programs are closing, three tasks have not ended yet; all have been told to. *)
Example C104_example : exists w,
  sound_table tbl_init /\ frun (fleet_init tbl_init) closing = Some w
  /\ map (fun g => match task_of g w with
                   | Some t => match ta_body t with BWorker _ wk => match w_life wk with Working => false | _ => true end
                               | BCron _ _ _ _ k | BPruner _ _ k => match tk_phase k with Stopped | Crashed => true | _ => false end end
                   | None => true end) [0; 1; 2; 3]%nat = [true; false; false; false]
  /\ (forall g t, task_of g w = Some t -> exists q, nth_error (connected closing) (ta_backend t) = Some q /\ shut (ta_token t) (program_of q closing))
  /\ (forall g t e l, task_of g w = Some t -> purpose t = RunsJobs e -> ex_max_concurrency (xe_consts e) = Some l -> 0 <= l).
Proof.
  eexists. split; [apply sound_init|]. split; [vm_compute; reflexivity|]. split; [reflexivity|]. split.
  - intros g t Ht. destruct g as [|[|[|[|g]]]]; cbn in Ht; try (injection Ht as <-).
    1: exists 0%nat. 2,3,4: exists 1%nat.
    1,2,3,4: split; [reflexivity|]; exists (1001 * ms), (AShutdown 0); split; [vm_compute; auto 10|left; reflexivity].
    unfold task_of in Ht. cbn in Ht. destruct g; discriminate.
  - intros g t e l Ht Hp. destruct g as [|[|[|[|g]]]].
    1,2,3,4: cbn in Ht; injection Ht as <-; try discriminate; injection Hp as <-; cbn; intro E; try discriminate; injection E as <-; lia.
    unfold task_of in Ht. cbn in Ht. destruct g; discriminate.
Qed.

(** * C105 What is due can be done *)

(** From every state, a worker at work can, by its own steps and those of the calls on the database, come
    to the point where all calls have returned, it has nothing in hand, and it may ask for a job; unless
    it crashes on a job it has been given.  No other task is touched. *)
Theorem C105_ready : forall Schedule Zone (utc : Zone) (upcoming : Schedule -> Zone -> time -> option time) show hash ident t0 es w g t e wk now,
  sound_table t0 -> fleet_run utc upcoming show hash ident (fleet_init t0) es = Some w ->
  task_of g w = Some t -> ta_body t = BWorker e wk ->
  w_life wk = Working -> w_transit wk = None -> w_open wk = true -> w_cancelled wk = false ->
  (forall l, ex_max_concurrency (xe_consts e) = Some l -> 0 <= l) ->
  exists es' w' wk', fleet_run utc upcoming show hash ident w es' = Some w'
    /\ Forall (fun x => fst x = now /\ of_task g (n_db (fl_net w)) (snd x)) es'
    /\ all_finished (n_db (fl_net w'))
    /\ task_of g w' = Some (mk_task (ta_backend t) (ta_token t) (BWorker e wk'))
    /\ (w_life wk' = Crashed_worker \/ (has_room e wk' /\ w_flights wk' = [] /\ empty_handed g w'))
    /\ (forall k, k <> g -> task_of k w' = task_of k w).
Proof.
  intros Sc Zn utc up show hash ident t0 es w g t e wk now Hs H Ht Eb L1 L2 L3 L4 Hl.
  destruct (ready_thm utc up show hash ident t0 Hs now w g t e wk (ex_intro _ es H) Ht Eb L1 L2 L3 L4 Hl) as [es' [w' [wk' [R [O [T [A [S [N D]]]]]]]]].
  exists es', w', wk'. split; [exact R|]. split; [|split; [exact S|split; [exact N|split; [exact D|exact (as_others _ _ _ A)]]]].
  apply Forall_forall. intros x Hx. split; [exact (proj1 (Forall_forall _ _) T x Hx)|exact (proj1 (Forall_forall _ _) O x Hx)].
Qed.
Print Assumptions C105_ready.

(** At such a point the worker can, by its own steps and those of its own calls alone and from any time
    [T] on, run and complete every job of its executor that was due at [T], whatever it has seen of the
    table so far.  Other jobs are left as they were, but for waiting jobs of the same executor that the database may
    hand out before them (none of them more than 100 ms before its time); no other task, stream or call is touched. *)
Theorem C105_worker : forall Schedule Zone (utc : Zone) (upcoming : Schedule -> Zone -> time -> option time) show hash ident t0 es w g t e wk T,
  sound_table t0 -> fleet_run utc upcoming show hash ident (fleet_init t0) es = Some w ->
  all_finished (n_db (fl_net w)) -> task_of g w = Some t -> ta_body t = BWorker e wk -> has_room e wk ->
  can_do e (q_tbl (n_db (fl_net w))) -> empty_handed g w ->
  exists es' w' wk', fleet_run utc upcoming show hash ident w es' = Some w'
    /\ Forall (fun x => T <= fst x /\ of_task g (n_db (fl_net w)) (snd x)) es'
    /\ Forall2 (fun x y =>
         let waits := (r_status x = "scheduled" \/ r_status x = "retryable")%string /\ r_executor x = ex_name (xe_consts e) in
         (waits /\ r_scheduled_at x <= T -> run_and_done T x y) /\ (~ waits -> y = x) /\ (y = x \/ run_and_done T x y))
         (t_rows (q_tbl (n_db (fl_net w)))) (t_rows (q_tbl (n_db (fl_net w'))))
    /\ task_of g w' = Some (mk_task (ta_backend t) (ta_token t) (BWorker e wk')) /\ w_flights wk' = w_flights wk
    /\ all_finished (n_db (fl_net w'))
    /\ (forall k, k <> g -> task_of k w' = task_of k w)
    /\ (forall k, nth_error (fl_streams w) g <> Some (Some k) -> nth_error (n_streams (fl_net w')) k = nth_error (n_streams (fl_net w)) k)
    /\ (forall c x, nth_error (q_calls (n_db (fl_net w))) c = Some x -> nth_error (q_calls (n_db (fl_net w'))) c = Some x).
Proof.
  intros Sc Zn utc up show hash ident t0 es w g t e wk T Hs H Hf Ht Eb Hr Hc He.
  destruct (work_thm utc up show hash ident t0 Hs T w g t e wk (ex_intro _ es H) Hf Ht Eb Hr Hc He) as [es' [w' [wk' [W [S [N [_ [F [_ [V D]]]]]]]]]].
  destruct W as [R O L A St C]. exists es', w', wk'. split; [exact R|]. split.
  { apply Forall_forall. intros x Hx. split; [exact (proj1 (Forall_forall _ _) L x Hx)|exact (proj1 (Forall_forall _ _) (O _) x Hx)]. }
  split; [|split; [exact N|split; [exact F|split; [exact S|split; [exact (as_others _ _ _ A)|split; [exact St|]]]]]].
  - clear -V D. induction V as [|x y l l' Hxy _ IH]; constructor; [|apply IH; intros r Hi; apply D; right; exact Hi].
    cbn zeta. fold (waits_for (ex_name (xe_consts e)) x). specialize (D y (or_introl eq_refl)). destruct Hxy as [->|[P Q]].
    + split; [|split; [reflexivity|left; reflexivity]]. intros [Hw Hle]. specialize (D Hw). lia.
    + split; [intros _; exact Q|]. split; [intro Hn; destruct (Hn P)|right; exact Q].
  - intros c [o pc] Hx. destruct (Hf _ _ Hx) as [r Er]. cbn [qc_pc] in Er. subst pc. exact (C c o r Hx).
Qed.
Print Assumptions C105_worker.

(** So can all the workers of the fleet: then no job that was due waits for an executor that has such a
    worker in some process; the jobs are those there were, each untouched or run and completed. *)
Theorem C105_all : forall Schedule Zone (utc : Zone) (upcoming : Schedule -> Zone -> time -> option time) show hash ident t0 es w T,
  sound_table t0 -> fleet_run utc upcoming show hash ident (fleet_init t0) es = Some w -> all_finished (n_db (fl_net w)) ->
  (forall g t e wk, task_of g w = Some t -> ta_body t = BWorker e wk -> has_room e wk -> can_do e (q_tbl (n_db (fl_net w))) /\ empty_handed g w) ->
  exists es' w', fleet_run utc upcoming show hash ident w es' = Some w'
    /\ Forall (fun x => T <= fst x /\ exists g, of_task g (n_db (fl_net w)) (snd x)) es'
    /\ all_finished (n_db (fl_net w'))
    /\ Forall2 (fun x y => y = x \/ ((r_status x = "scheduled" \/ r_status x = "retryable")%string /\ run_and_done T x y))
         (t_rows (q_tbl (n_db (fl_net w)))) (t_rows (q_tbl (n_db (fl_net w'))))
    /\ (forall g t e wk r, task_of g w = Some t -> ta_body t = BWorker e wk -> has_room e wk ->
         In r (t_rows (q_tbl (n_db (fl_net w')))) -> (r_status r = "scheduled" \/ r_status r = "retryable")%string ->
         r_executor r = ex_name (xe_consts e) -> T < r_scheduled_at r)
    /\ (forall g t, task_of g w = Some t -> exists t', task_of g w' = Some t' /\ ta_backend t' = ta_backend t /\ ta_token t' = ta_token t
         /\ (t' = t \/ exists e wk wk', ta_body t = BWorker e wk /\ ta_body t' = BWorker e wk' /\ has_room e wk /\ has_room e wk' /\ w_flights wk' = w_flights wk)).
Proof.
  intros Sc Zn utc up show hash ident t0 es w T Hs H Hf Hw.
  destruct (all_work utc up show hash ident t0 Hs T w (ex_intro _ es H) Hf Hw (length (fl_places w))) as [es' [w' Q]].
  destruct Q as [R [O [L [S [_ [_ [_ [Tk [_ [V D]]]]]]]]]]. exists es', w'. split; [exact R|]. split.
  { apply Forall_forall. intros x Hx. split; [exact (proj1 (Forall_forall _ _) L x Hx)|].
    destruct (proj1 (Forall_forall _ _) O x Hx) as [g Hg]. exists g. apply Hg. }
  split; [exact S|]. split; [|split].
  - clear -V. induction V as [|x y l l' Hxy _ IH]; constructor; [|exact IH]. destruct Hxy as [ex [->|[[P _] Q]]]; auto.
  - intros g t e wk r Ht Eb Hr Hi Hst Hx. refine (D g t e wk r _ Ht Eb Hr Hi (Logic.conj Hst Hx)).
    unfold task_of in Ht. apply nth_error_Some. intro E. rewrite E in Ht. discriminate.
  - intros g t Ht. destruct (Tk g t Ht) as [t' [Q1 [Q2 [Q3 [Q4 _]]]]]. exists t'. auto.
Qed.
Print Assumptions C105_all.

(** Worker 0 is done with its job, worker 1 found none and worker 3 runs one; then jobs come in, of which
    no worker has been told: two mail jobs that are due, one for later, and a push job. *)
Definition push_job : list (time * fleet_event Z Z) :=
  ended_job ++ runs 3 2 35 ++ [(36 * ms, FAnswer 0 0); (37 * ms, FCall (OpEnqueue (req push 0 (37 * ms))))] ++ runs 4 4 38
  ++ looks 3 3 39 ++ runs 5 3 40 ++ looks 3 1 41 ++ [(42 * ms, FStart 3 0)].
Definition fleet_backlog : list (time * fleet_event Z Z) :=
  push_job ++ [(43 * ms, FCall (OpEnqueue (req mail 0 (43 * ms))))] ++ runs 6 4 44
  ++ [(45 * ms, FCall (OpEnqueue (req mail 1 (20 * ms))))] ++ runs 7 4 46
  ++ [(47 * ms, FCall (OpEnqueue (req mail 0 (900000 * ms))))] ++ runs 8 4 48
  ++ [(49 * ms, FCall (OpEnqueue (req push 0 (49 * ms))))] ++ runs 9 4 50.

Example C105_ready_example : exists w t e wk,
  sound_table tbl_init /\ frun (fleet_init tbl_init) taken = Some w /\ task_of 0 w = Some t /\ ta_body t = BWorker e wk
  /\ w_life wk = Working /\ w_transit wk = None /\ w_open wk = true /\ w_cancelled wk = false /\ map j_id (unreported wk) = [1]
  /\ (forall l, ex_max_concurrency (xe_consts e) = Some l -> 0 <= l).
Proof.
  do 4 eexists. split; [apply sound_init|]. split; [vm_compute; reflexivity|]. split; [reflexivity|]. split; [reflexivity|].
  do 5 (split; [reflexivity|]). intros l H. injection H as <-. lia.
Qed.
Example C105_example : exists w,
  sound_table tbl_init /\ frun (fleet_init tbl_init) fleet_backlog = Some w
  /\ map (fun r => (r_id r, r_executor r, r_status r, r_scheduled_at r)) (t_rows (q_tbl (n_db (fl_net w))))
     = [ (1, mail, "complete", 10 * ms); (2, push, "executing", 37 * ms); (3, mail, "scheduled", 43 * ms); (4, mail, "scheduled", 20 * ms);
         (5, mail, "scheduled", 900000 * ms); (6, push, "scheduled", 49 * ms) ]%string
  /\ map (fun t => map j_id (holdings t)) (crew w) = [[]; []; []; [2]]
  /\ all_finished (n_db (fl_net w))
  /\ (exists t e wk, task_of 0 w = Some t /\ ta_body t = BWorker e wk /\ has_room e wk)
  /\ (forall g t e wk, task_of g w = Some t -> ta_body t = BWorker e wk -> has_room e wk /\ can_do e (q_tbl (n_db (fl_net w))) /\ empty_handed g w).
Proof.
  eexists. split; [apply sound_init|]. split; [vm_compute; reflexivity|]. split; [reflexivity|]. split; [reflexivity|]. split; [|split].
  - intros i c H. do 10 (destruct i as [|i]; [injection H as <-; eexists; reflexivity|]). destruct i; discriminate H.
  - do 3 eexists. split; [reflexivity|]. split; [reflexivity|]. repeat split; cbn; auto; lia.
  - intros g t e wk Ht Eb. destruct g as [|[|[|[|g]]]]; [| | | |destruct g; discriminate Ht]; injection Ht as <-; try discriminate Eb; injection Eb as <- <-.
    all: split; [repeat split; cbn; auto; lia|]; split;
      [|intros k st seen read d i o res H1 H2 H3 _; injection H1 as <-; injection H2 as <-; discriminate H3].
    all: split; [reflexivity|]; intros r Hr [Hs Hx]; cbn in Hr; repeat destruct Hr as [<-|Hr]; try destruct Hr; try (destruct Hs; discriminate); try discriminate Hx.
    all: eexists; split; [apply represents_iff; vm_compute; reflexivity|]; intro now; do 3 eexists; split; [reflexivity|]; split; reflexivity.
Qed.
