(** On Postgres, jobs of a better priority overtake others as long as they come in (C112); when workers may ask for jobs (C93, C100, C105). *)
From Coq Require Import Lia.
From Verif Require Import FxHash PgSpec PgProofs PropsPgConc.
From Verif Require Import Base Chrono Types Query Memory MemSpec PgRow PgQuery Pg PgConc PgConcSpec PgListen Codec Builder Runner RunnerSpec
  Ticker Pruner Samples ApiSpec App AppSpec World WorldSpec WorldThms WorldWork WorldDue Fleet FleetSpec FleetThms FleetLive FleetWork FairSpec FleetFair FleetDue FleetStarve
  PropsRunner PropsApp PropsWorld PropsPg PropsFleet PropsFleetFair PropsFleetDue.

(** * C93, C100 When a worker asks for jobs *)

(** In a program on in-memory backends, a worker's stream can be polled if and only if the worker lives, has not been told to stop,
    and has fewer jobs in progress than its limit: nothing else keeps it from asking. *)
Theorem C93_asks : forall Schedule Zone (utc : Zone) (upcoming : Schedule -> Zone -> time -> option time) show hash p es w i t e wk now,
  world_run utc upcoming show hash p world_init es = Some w ->
  nth_error (pr_tasks (wd_process w)) i = Some t -> ta_body t = BWorker e wk ->
  (exists w', world_step utc upcoming show hash p now w (VPoll i) = Some w')
  <-> w_life wk = Working /\ w_cancelled wk = false
      /\ match ex_max_concurrency (xe_consts e) with
         | Some l => l = 0 \/ Z.of_nat (length (w_flights wk)) < l
         | None => True
         end.
Proof.
  intros Sc Zn utc up show hash p es w i t e wk now H Ht Eb. rewrite (C93_poll _ _ utc up show hash p es w i t e wk now H Ht Eb).
  destruct (WorldDue.settled_thm utc up show hash p es w i t e wk H Ht Eb) as [S1 S2]. tauto.
Qed.
Print Assumptions C93_asks.

(** In processes that share Postgres, too. *)
Theorem C100_asks : forall Schedule Zone (utc : Zone) (upcoming : Schedule -> Zone -> time -> option time) show hash ident t0 es w g t e wk now,
  sound_table t0 -> fleet_run utc upcoming show hash ident (fleet_init t0) es = Some w ->
  task_of g w = Some t -> ta_body t = BWorker e wk ->
  (exists w', fleet_step utc upcoming show hash ident now w (FPoll g) = Some w')
  <-> w_life wk = Working /\ w_cancelled wk = false
      /\ match ex_max_concurrency (xe_consts e) with
         | Some l => l = 0 \/ Z.of_nat (length (w_flights wk)) < l
         | None => True
         end.
Proof.
  intros Sc Zn utc up show hash ident t0 es w g t e wk now Hs H Ht Eb. rewrite (C100_poll _ _ utc up show hash ident t0 es w g t e wk now H Ht Eb).
  assert (S : w_transit wk = None /\ (w_life wk = Working -> w_cancelled wk = false -> w_open wk = true)) by (eapply settled_fleet; eauto; eexists; exact H).
  tauto.
Qed.
Print Assumptions C100_asks.

(** * C105 What is due can be done *)

(** From every state, a worker that is at work and has not been told to stop can come to the point where all calls have returned, it
    has nothing in hand and may ask for a job; unless it crashes on a job it has been given. *)
Theorem C105_always_ready : forall Schedule Zone (utc : Zone) (upcoming : Schedule -> Zone -> time -> option time) show hash ident t0 es w g b e now,
  sound_table t0 -> fleet_run utc upcoming show hash ident (fleet_init t0) es = Some w -> fleet_on_duty w g b e ->
  (forall l, ex_max_concurrency (xe_consts e) = Some l -> 0 <= l) ->
  exists es' w' tk wk', fleet_run utc upcoming show hash ident w es' = Some w'
    /\ Forall (fun x => fst x = now /\ of_task g (n_db (fl_net w)) (snd x)) es'
    /\ all_finished (n_db (fl_net w'))
    /\ task_of g w' = Some (mk_task b tk (BWorker e wk'))
    /\ (w_life wk' = Crashed_worker \/ (has_room e wk' /\ w_flights wk' = [] /\ empty_handed g w'))
    /\ (forall k, k <> g -> task_of k w' = task_of k w).
Proof.
  intros Sc Zn utc up show hash ident t0 es w g b e now Hs H [tk [wk [Ht [L1 L2]]]] Hl.
  assert (S : w_transit wk = None /\ (w_life wk = Working -> w_cancelled wk = false -> w_open wk = true)) by (eapply settled_fleet; eauto; eexists; exact H).
  destruct S as [S1 S2]. destruct (C105_ready _ _ utc up show hash ident t0 es w g _ e wk now Hs H Ht eq_refl L1 S1 (S2 L1 L2) L2 Hl) as [es' [w' [wk' K]]].
  exists es', w', tk, wk'. exact K.
Qed.
Print Assumptions C105_always_ready.

(** What [run_and_done] says of the columns: completed, one attempt more, attempted when it was due and not before [T]. *)
Theorem C105_done : forall T x y,
  run_and_done T x y ->
  r_id y = r_id x /\ r_status y = "complete"%string /\ r_attempt y = r_attempt x + 1 /\ r_scheduled_at y = r_scheduled_at x
  /\ exists a c, r_attempted_at y = Some a /\ r_completed_at y = Some c /\ pg_time T <= a <= c /\ r_scheduled_at x < a + 100000000.
Proof.
  intros T x y [j [t1 [t2 [Ht [Hd [Hx [Hy _]]]]]]].
  destruct Hx as [X1 [_ [_ [_ [_ [X2 [_ [_ [_ [_ [_ [X3 _]]]]]]]]]]]].
  destruct Hy as [Y1 [Y2 [_ [_ [_ [Y3 [_ [_ [_ [_ [_ [Y4 [Y5 [Y6 _]]]]]]]]]]]]]].
  cbn in Y1, Y2, Y3, Y4, Y5, Y6. split; [congruence|]. split; [inversion Y2; reflexivity|]. split; [congruence|]. split; [congruence|].
  exists (pg_time t1), (pg_time t2). split; [exact Y5|]. split; [exact Y6|].
  pose proof (pg_time_mono T t1 ltac:(lia)). pose proof (pg_time_mono t1 t2 ltac:(lia)). split; [lia|].
  rewrite X3. unfold ns_per_ms in Hd. lia.
Qed.
Print Assumptions C105_done.

(** * C112 A job is overtaken as long as jobs of a better priority come in *)

(** Whatever job [x] waits for an executor, and however long it has been due: if [N] times a program enqueues a job of a better priority
    as soon as the worker is done with the one before, the worker may take [N] jobs, all of them of a better priority than [x], while [x] stays as it is. *)
Theorem C112_overtaken : forall Schedule Zone (utc : Zone) (upcoming : Schedule -> Zone -> time -> option time) show hash ident t0 es w g t e wk x q T N,
  sound_table t0 -> fleet_run utc upcoming show hash ident (fleet_init t0) es = Some w ->
  all_finished (n_db (fl_net w)) -> task_of g w = Some t -> ta_body t = BWorker e wk -> has_room e wk ->
  can_do e (q_tbl (n_db (fl_net w))) -> empty_handed g w ->
  In x (t_rows (q_tbl (n_db (fl_net w)))) ->
  kept_time T -> kept_request q -> eq_executor q = ex_name (xe_consts e) -> eq_criteria q = None ->
  eq_priority q < r_priority x -> eq_scheduled_at q <= T ->
  (forall id now, runnable (xe_codec e) (xe_fns e) (after_hand_out now (new_job T id q))) ->
  t_next (q_tbl (n_db (fl_net w))) + Z.of_nat N <= 2147483648 ->
  exists es' w' wk' l, fleet_run utc upcoming show hash ident w es' = Some w'
    /\ called es' = repeat (OpEnqueue q) N
    /\ Forall (fun y => T <= fst y /\ (snd y = FCall (OpEnqueue q) \/ forall s, of_task g s (snd y))) es'
    /\ all_finished (n_db (fl_net w')) /\ task_of g w' = Some (mk_task (ta_backend t) (ta_token t) (BWorker e wk'))
    /\ has_room e wk' /\ empty_handed g w'
    /\ In x (t_rows (q_tbl (n_db (fl_net w'))))
    /\ jobs_taken wk' = jobs_taken wk ++ l /\ length l = N /\ Forall (fun j => j_priority j < r_priority x) l
    /\ (forall h, h <> g -> task_of h w' = task_of h w).
Proof.
  intros Sc Zn utc up show hash ident t0 es w g t e wk x q T N Hs H Hf Ht Eb Hr Hc He Hx HT Q1 Q2 Q3 Q4 Q5 Q6 Hn.
  destruct (stream_thm utc up show hash ident t0 es w g t e wk H Ht Eb) as [k [st [E1 [E2 [_ [E4 _]]]]]].
  assert (R : ready utc up show hash ident t0 w g t e wk k st) by (constructor; auto; [eexists; exact H|apply (WorldWork.room_polls show); exact Hr]).
  destruct (overtaken utc up show hash ident t0 Hs T g e x q HT ltac:(repeat split; auto; apply Q1) N w t wk k st R Hc He Hx Hn)
    as [es' [w' [wk' [st' [l [U1 [U2 [U3 [U4 [U5 [U6 [U7 [U8 [U9 U10]]]]]]]]]]]]]].
  exists es', w', wk', l. split; [exact U1|]. split; [exact U2|]. split; [exact U3|]. destruct U4 as [R1 R2 R3 R4 R5 R6 R7 R8].
  split; [exact R8|]. split; [exact R2|]. split; [apply (WorldWork.room_polls show); exact R4|]. auto 10.
Qed.
Print Assumptions C112_overtaken.

(** A job of priority 4 waits; jobs of priority 2 come in. *)
Definition one_waits : list (time * fleet_event Z Z) :=
  [ (1 * ms, FNode); (2 * ms, FOpen 0); (3 * ms, FApp 0 (ANew 0)); (4 * ms, FApp 0 (AExecutor 0 mail_executor));
    (5 * ms, FCall (OpEnqueue (req mail 4 (10 * ms)))) ] ++ runs 0 4 6.
Example C112_example : exists w t wk x,
  sound_table tbl_init /\ frun (fleet_init tbl_init) one_waits = Some w
  /\ all_finished (n_db (fl_net w)) /\ task_of 0 w = Some t /\ ta_body t = BWorker mail_executor wk /\ has_room mail_executor wk
  /\ can_do mail_executor (q_tbl (n_db (fl_net w))) /\ empty_handed 0 w
  /\ In x (t_rows (q_tbl (n_db (fl_net w)))) /\ waits_for mail x /\ r_scheduled_at x = 10 * ms /\ r_priority x = 4
  /\ kept_time (100 * ms) /\ kept_request (req mail 2 (11 * ms)) /\ eq_executor (req mail 2 (11 * ms)) = mail
  /\ eq_criteria (req mail 2 (11 * ms)) = None /\ eq_priority (req mail 2 (11 * ms)) < 4 /\ eq_scheduled_at (req mail 2 (11 * ms)) <= 100 * ms
  /\ (forall id now, runnable (xe_codec mail_executor) (xe_fns mail_executor) (after_hand_out now (new_job (100 * ms) id (req mail 2 (11 * ms)))))
  /\ t_next (q_tbl (n_db (fl_net w))) + Z.of_nat 1000 <= 2147483648.
Proof.
  do 4 eexists. split; [apply sound_init|]. split; [vm_compute; reflexivity|]. split; [|split; [reflexivity|]].
  { intros i c H. do 1 (destruct i as [|i]; [injection H as <-; eexists; reflexivity|]). destruct i; discriminate H. }
  split; [reflexivity|]. split; [repeat split; cbn; auto; lia|]. split; [|split; [|split; [left; reflexivity|]]].
  - split; [reflexivity|]; intros r Hr [Hs Hx]; cbn in Hr; repeat destruct Hr as [<-|Hr]; try destruct Hr.
    eexists; split; [apply represents_iff; vm_compute; reflexivity|]; intro now; do 3 eexists; split; [reflexivity|]; split; reflexivity.
  - intros k st seen read d i o res H1 H2 H3 _; injection H1 as <-; injection H2 as <-; discriminate H3.
  - split; [split; [left; reflexivity|reflexivity]|]. do 2 (split; [reflexivity|]). split; [split; [exists 100000; reflexivity|vm_compute; discriminate]|].
    split; [|do 2 (split; [reflexivity|]); split; [reflexivity|]; split; [vm_compute; discriminate|]; split; [|vm_compute; discriminate]].
    + split; [apply storable_clean; reflexivity|]. split; [apply json_storable_clean; reflexivity|]. split; [apply json_storable_clean; reflexivity|].
      split; [split; [exists 11000; reflexivity|vm_compute; discriminate]|apply storable_all; reflexivity].
    + intros id now. do 3 eexists; split; [reflexivity|]; split; reflexivity.
Qed.
