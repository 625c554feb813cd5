(** What must happen in processes that share Postgres, if every part gets its turns (C108-C109). *)
From Coq Require Import Lia.
From Verif Require Import Base Chrono Types Query Memory MemSpec MemConc PgRow Pg PgSpec PgProofs FxHash PgConc PgConcSpec PgListen PgListenSpec Codec Builder
  Runner RunnerSpec Ticker Pruner Samples ApiSpec App AppSpec World WorldSpec WorldLive WorldFair WorldRest Fleet FleetSpec FleetThms FleetLive FairSpec FleetFair FleetRest
  PropsRunner PropsApp PropsWorld PropsPg PropsPgConc PropsFleet.

(** * C108 A shutdown on Postgres completes *)

(** In every endless history in which no call stands still for ever, a task gets its turns, and a loop
    that could leave again and again does: a task whose [Rexecutor] has been shut down by its process
    comes to its end, whatever the other processes do. *)
Theorem C108_ends : forall Schedule Zone (utc : Zone) (upcoming : Schedule -> Zone -> time -> option time) show hash ident t0 st ev g n t q,
  sound_table t0 -> st 0%nat = fleet_init t0 -> endless (fleet_step utc upcoming show hash ident) st ev ->
  calls_move st -> just (fleet_step utc upcoming show hash ident) (fleet_step_of g) st ev ->
  compassionate (fleet_step utc upcoming show hash ident) (eq (FLeave g)) st ev ->
  task_of g (st n) = Some t -> nth_error (connected (first n ev)) (ta_backend t) = Some q -> shut (ta_token t) (program_of q (first n ev)) ->
  (forall e l, purpose t = RunsJobs e -> ex_max_concurrency (xe_consts e) = Some l -> 0 <= l) ->
  exists m t', (n <= m)%nat /\ task_of g (st m) = Some t' /\ (ended t' \/ died t').
Proof.
  intros Sc Zn utc up show hash ident t0 st ev g n t q Hs H0 H Hg Hj Hc Ht Hq Hsh Hl.
  exact (told_ends utc up show hash ident t0 Hs st ev g n t q (Logic.conj H0 H) Hg Hj Hc Ht Hq Hsh Hl).
Qed.
Print Assumptions C108_ends.

(** So there is a time from which on all that were told to stop have stopped. *)
Theorem C108_all : forall Schedule Zone (utc : Zone) (upcoming : Schedule -> Zone -> time -> option time) show hash ident t0 st ev n,
  sound_table t0 -> st 0%nat = fleet_init t0 -> endless (fleet_step utc upcoming show hash ident) st ev ->
  calls_move st -> (forall g, just (fleet_step utc upcoming show hash ident) (fleet_step_of g) st ev) ->
  (forall g, compassionate (fleet_step utc upcoming show hash ident) (eq (FLeave g)) st ev) ->
  (forall g t e l, task_of g (st n) = Some t -> purpose t = RunsJobs e -> ex_max_concurrency (xe_consts e) = Some l -> 0 <= l) ->
  exists m, (n <= m)%nat /\ forall g t q k, task_of g (st n) = Some t ->
    nth_error (connected (first n ev)) (ta_backend t) = Some q -> shut (ta_token t) (program_of q (first n ev)) -> (m <= k)%nat ->
    exists t', task_of g (st k) = Some t' /\ (ended t' \/ died t').
Proof.
  intros Sc Zn utc up show hash ident t0 st ev n Hs H0 H Hg Hj Hc Hl.
  destruct (all_over utc up show hash ident t0 Hs st ev n (Logic.conj H0 H) Hg Hj Hc) as [m [L K]]; [intros g t Ht e l; apply (Hl g t e l Ht)|].
  exists m. split; [exact L|]. intros g t q k Ht Hq Hsh Lk. destruct (K g t q Ht Hq Hsh) as [t' [N D]]. exists t'. split; [|exact D].
  exact (over_stays utc up show hash ident t0 st ev g m t' (Logic.conj H0 H) N D k Lk).
Qed.
Print Assumptions C108_all.

(** A worker that has been told to stop takes at most three more steps for each job it has, and two. *)
Definition of_crew {Schedule Zone} (g : nat) (ev : fleet_event Schedule Zone) : bool :=
  match ev with FClose k | FStart k _ | FEnd k _ _ _ _ | FAnswer k _ | FFinish k => Nat.eqb k g | _ => false end.
Theorem C108_bound : forall Schedule Zone (utc : Zone) (upcoming : Schedule -> Zone -> time -> option time) show hash ident t0 es w g t q e wk es' w',
  fleet_run utc upcoming show hash ident (fleet_init t0) es = Some w ->
  task_of g w = Some t -> ta_body t = BWorker e wk -> nth_error (connected es) (ta_backend t) = Some q -> shut (ta_token t) (program_of q es) ->
  fleet_run utc upcoming show hash ident w es' = Some w' ->
  (length (filter (fun x => of_crew g (snd x)) es') <= 3 * length (w_flights wk) + 2)%nat.
Proof.
  intros Sc Zn utc up show hash ident t0 es w g t q e wk es' w' H Ht Eb Hq Hs Hr.
  assert (R : reached utc up show hash ident t0 w) by (exists es; exact H).
  pose proof (fuel_size wk) as F. destruct (w_life wk) eqn:El.
  - pose proof (proj2 (shut_tokens utc up show hash ident t0 es w g t q H Ht Hq)) as C. rewrite Eb in C.
    pose proof (fuel_bound utc up show hash ident t0 g es' w w' t e wk R Hr Ht Eb (C El Hs)) as K.
    change (@steps Sc Zn) with (@of_crew Sc Zn) in K. lia.
  - pose proof (stopped_stays utc up show hash ident t0 g es' w w' t e wk R Hr Ht Eb ltac:(congruence)) as K. change (@steps Sc Zn) with (@of_crew Sc Zn) in K. rewrite K. cbn. lia.
  - pose proof (stopped_stays utc up show hash ident t0 g es' w w' t e wk R Hr Ht Eb ltac:(congruence)) as K. change (@steps Sc Zn) with (@of_crew Sc Zn) in K. rewrite K. cbn. lia.
Qed.
Print Assumptions C108_bound.

(** That loops which could leave do leave is needed here too. *)
Theorem C108_loop_refuted : exists st ev,
  st 0%nat = fleet_init tbl_init /\ endless fstep st ev /\ calls_move st /\ (forall g, just fstep (fleet_step_of g) st ev)
  /\ (exists t q, task_of 0 (st 5%nat) = Some t /\ nth_error (connected (first 5 ev)) (ta_backend t) = Some q /\ shut (ta_token t) (program_of q (first 5 ev)))
  /\ forall n t, task_of 0 (st n) = Some t -> ~ ended t /\ ~ died t.
Proof.
  exists (loop_states 0 every shown key_of fx_identifier tbl_init 1000), (loop_events 0 every shown key_of fx_identifier tbl_init 1000).
  destruct (loop_goes_on 0 every shown key_of fx_identifier tbl_init 1000) as [[A B] [C [D [[t [E1 [E2 E3]]] F]]]]; [discriminate|].
  do 4 (split; [assumption|]). split; [exists t, 0%nat; auto|exact F].
Qed.
Print Assumptions C108_loop_refuted.

(** * C109 On Postgres too, a job that was taken is reported, and the report is answered *)

(** In every endless history in which no call stands still and each job gets its turns: a job that a
    worker has taken is reported on and the database has answered the report - with an error, perhaps -,
    unless the worker dies or the job cannot be decoded. *)
Theorem C109_done : forall Schedule Zone (utc : Zone) (upcoming : Schedule -> Zone -> time -> option time) show hash ident t0 st ev g n k t e wk j,
  sound_table t0 -> st 0%nat = fleet_init t0 -> endless (fleet_step utc upcoming show hash ident) st ev ->
  calls_move st -> just (fleet_step utc upcoming show hash ident) (fleet_step_with g n) st ev ->
  task_of g (st k) = Some t -> ta_body t = BWorker e wk -> In (Taken n (MJob j)) (w_seen wk) ->
  exists m t' wk', (k <= m)%nat /\ task_of g (st m) = Some t' /\ ta_body t' = BWorker e wk'
    /\ (w_life wk' = Crashed_worker
        \/ unreadable (xe_codec e) j
        \/ exists a x r, In (Reported n (qc_op x)) (w_seen wk') /\ In a (fl_asks (st m)) /\ ak_task a = g /\ ak_turn a = n
             /\ nth_error (q_calls (n_db (fl_net (st m)))) (ak_call a) = Some x /\ qc_pc x = QDone (RUnit r)).
Proof.
  intros Sc Zn utc up show hash ident t0 st ev g n k t e wk j Hs H0 H. exact (job_done utc up show hash ident t0 Hs st ev g n k t e wk j (Logic.conj H0 H)).
Qed.
Print Assumptions C109_done.

(** Every call that is made returns. *)
Theorem C109_calls : forall Schedule Zone (utc : Zone) (upcoming : Schedule -> Zone -> time -> option time) show hash ident t0 st ev n c x,
  st 0%nat = fleet_init t0 -> endless (fleet_step utc upcoming show hash ident) st ev -> calls_move st ->
  nth_error (q_calls (n_db (fl_net (st n)))) c = Some x ->
  exists m, (n <= m)%nat /\ forall m', (m <= m')%nat -> fleet_returned (st m') c.
Proof.
  intros Sc Zn utc up show hash ident t0 st ev n c x H0 H Hg Hc.
  destruct (calls_come_back utc up show hash ident t0 st ev (Logic.conj H0 H) Hg n c x Hc) as [m [L R]]. exists m. split; [exact L|].
  intros m' L'. exact (still_back utc up show hash ident t0 st ev m m' c (Logic.conj H0 H) L' R).
Qed.
Print Assumptions C109_calls.

(** Both processes shut down while the first worker's report is on its way; everything comes to its end. *)
Definition dusk : list (time * fleet_event Z Z) := ended_job ++ [(40 * ms, FApp 0 (AShutdown 0)); (40 * ms, FApp 1 (AShutdown 0))].
Definition dark : list (time * fleet_event Z Z) :=
  dusk ++ runs 3 2 50 ++ [ (51 * ms, FAnswer 0 0); (52 * ms, FClose 0); (52 * ms, FFinish 0); (52 * ms, FClose 1); (52 * ms, FFinish 1);
                           (53 * ms, FLeave 2); (54 * ms, FClose 3); (54 * ms, FFinish 3) ].
Lemma dark_rest : exists w, frun (fleet_init tbl_init) dark = Some w /\ at_rest w /\ nth_error (q_calls (n_db (fl_net w))) 4 = None.
Proof.
  eexists. split; [vm_compute; reflexivity|]. split; [|reflexivity]. split; [|split].
  - intros g t Ht. destruct g as [|[|[|[|g]]]]; [injection Ht as <-; left; reflexivity..|]. unfold task_of in Ht. cbn in Ht. destruct g; discriminate.
  - cbn. repeat constructor; cbn; intro K; repeat destruct K as [K|K]; try discriminate; exact K.
  - intros c Hc. cbn in Hc. repeat destruct Hc as [<-|Hc]; try destruct Hc; eexists; reflexivity.
Qed.
Example C108_example : exists st ev, sound_table tbl_init /\ st 0%nat = fleet_init tbl_init /\ endless fstep st ev /\ calls_move st
  /\ (forall g, just fstep (fleet_step_of g) st ev) /\ (forall g n, just fstep (fleet_step_with g n) st ev) /\ (forall g, compassionate fstep (eq (FLeave g)) st ev)
  /\ frun (fleet_init tbl_init) dusk = Some (st (length dusk)) /\ first (length dusk) ev = dusk.
Proof.
  destruct dark_rest as [w [H [R C]]]. destruct (rest_history 0 every shown key_of fx_identifier tbl_init (60 * ms) 4 dark w H R C) as [[A1 A2] [B [D [E [F G]]]]].
  exists (states 0 every shown key_of fx_identifier tbl_init (then_rest (60 * ms) 4 dark)), (then_rest (60 * ms) 4 dark).
  split; [apply sound_init|]. split; [exact A1|]. split; [exact A2|]. do 4 (split; [assumption|]).
  assert (K : first (length dusk) (then_rest (60 * ms) 4 dark) = dusk) by (rewrite then_first; vm_compute; reflexivity).
  split; [|exact K]. unfold states. rewrite K. vm_compute. reflexivity.
Qed.
(** Then the first worker has a job in hand, and has been told to stop. *)
Example C109_example : exists w t e wk j, frun (fleet_init tbl_init) dusk = Some w /\ task_of 0 w = Some t /\ ta_body t = BWorker e wk
  /\ In (Taken 0 (MJob j)) (w_seen wk) /\ w_flights wk <> [] /\ ~ unreadable (xe_codec e) j
  /\ nth_error (connected dusk) (ta_backend t) = Some 0%nat /\ shut (ta_token t) (program_of 0 dusk)
  /\ (forall e' l, purpose t = RunsJobs e' -> ex_max_concurrency (xe_consts e') = Some l -> 0 <= l).
Proof.
  do 5 eexists. split; [vm_compute; reflexivity|]. split; [reflexivity|]. split; [reflexivity|]. split; [cbn; auto|]. split; [discriminate|].
  split; [intros [K|[K _]]; [discriminate K|apply K; reflexivity]|]. split; [reflexivity|].
  split; [exists (40 * ms), (AShutdown 0); split; [vm_compute; auto 10|left; reflexivity]|].
  intros e' l Hp. injection Hp as <-. cbn. intro E. injection E as <-. lia.
Qed.
Example C108_bound_example : exists w w' t e wk, frun (fleet_init tbl_init) dusk = Some w /\ task_of 0 w = Some t /\ ta_body t = BWorker e wk
  /\ frun w (skipn (length dusk) dark) = Some w'
  /\ length (filter (fun x => of_crew 0 (snd x)) (skipn (length dusk) dark)) = 3%nat /\ length (w_flights wk) = 1%nat.
Proof.
  do 5 eexists. split; [vm_compute; reflexivity|]. split; [reflexivity|]. split; [reflexivity|].
  split; [vm_compute; reflexivity|]. split; reflexivity.
Qed.
