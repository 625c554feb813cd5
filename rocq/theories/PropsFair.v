(** What must happen in a program, if every part of it gets its turns (C106-C107). *)
From Coq Require Import Lia.
From Verif Require Import Base Chrono Types Query Memory MemSpec MemConc MemConcSpec Codec Builder Runner RunnerSpec
  Ticker Pruner Samples ApiSpec App AppSpec World WorldSpec WorldThms WorldLive FairSpec WorldFair WorldRest PropsRunner PropsApp PropsWorld.

(** * C106 A shutdown completes *)

(** In every endless history in which calls go on, a task gets its turns, and a loop that could leave
    again and again does: a task whose [Rexecutor] has been shut down comes to its end. *)
Theorem C106_ends : forall Schedule Zone (utc : Zone) (upcoming : Schedule -> Zone -> time -> option time) show hash p st ev i n t,
  st 0%nat = world_init -> endless (world_step utc upcoming show hash p) st ev ->
  calls_go_on st ev -> just (world_step utc upcoming show hash p) (step_of i) st ev ->
  compassionate (world_step utc upcoming show hash p) (eq (VLeave i)) st ev ->
  nth_error (pr_tasks (wd_process (st n))) i = Some t -> shut (ta_token t) (program (first n ev)) ->
  (forall e l, purpose t = RunsJobs e -> ex_max_concurrency (xe_consts e) = Some l -> 0 <= l) ->
  exists m t', (n <= m)%nat /\ nth_error (pr_tasks (wd_process (st m))) i = Some t' /\ (ended t' \/ died t').
Proof.
  intros Sc Zn utc up show hash p st ev i n t H0 H Hg Hj Hc Ht Hs Hl.
  exact (told_ends utc up show hash p st ev i n t (Logic.conj H0 H) Hg Hj Hc Ht Hs Hl).
Qed.
Print Assumptions C106_ends.

(** So there is a time from which on all that were told to stop have stopped. *)
Theorem C106_all : forall Schedule Zone (utc : Zone) (upcoming : Schedule -> Zone -> time -> option time) show hash p st ev n,
  st 0%nat = world_init -> endless (world_step utc upcoming show hash p) st ev ->
  calls_go_on st ev -> (forall i, just (world_step utc upcoming show hash p) (step_of i) st ev) ->
  (forall i, compassionate (world_step utc upcoming show hash p) (eq (VLeave i)) st ev) ->
  (forall t e l, In t (pr_tasks (wd_process (st n))) -> purpose t = RunsJobs e -> ex_max_concurrency (xe_consts e) = Some l -> 0 <= l) ->
  exists m, (n <= m)%nat /\ forall i t k, nth_error (pr_tasks (wd_process (st n))) i = Some t -> shut (ta_token t) (program (first n ev)) -> (m <= k)%nat ->
    exists t', nth_error (pr_tasks (wd_process (st k))) i = Some t' /\ (ended t' \/ died t').
Proof.
  intros Sc Zn utc up show hash p st ev n H0 H Hg Hj Hc Hl.
  destruct (all_over utc up show hash p st ev n (Logic.conj H0 H) Hg Hj Hc) as [m [L K]]; [intros t Ht e l; apply Hl, Ht|].
  exists m. split; [exact L|]. intros i t k Ht Hs Lk. destruct (K i t Ht Hs) as [t' [N D]]. exists t'. split; [|exact D].
  exact (over_stays utc up show hash p st ev i m t' (Logic.conj H0 H) N D k Lk).
Qed.
Print Assumptions C106_all.

(** A worker that has been told to stop takes at most three more steps for each job it has, and two. *)
Definition of_worker {Schedule Zone} (i : nat) (ev : world_event Schedule Zone) : bool :=
  match ev with VClose k | VStart k _ | VEnd k _ _ _ _ | VAnswer k _ | VFinish k => Nat.eqb k i | _ => false end.
Theorem C106_bound : forall Schedule Zone (utc : Zone) (upcoming : Schedule -> Zone -> time -> option time) show hash p es w i t e wk es' w',
  world_run utc upcoming show hash p world_init es = Some w ->
  nth_error (pr_tasks (wd_process w)) i = Some t -> ta_body t = BWorker e wk -> shut (ta_token t) (program es) ->
  world_run utc upcoming show hash p w es' = Some w' ->
  (length (filter (fun x => of_worker i (snd x)) es') <= 3 * length (w_flights wk) + 2)%nat.
Proof.
  intros Sc Zn utc up show hash p es w i t e wk es' w' H Ht Eb Hs Hr.
  pose proof (fuel_size wk) as F. destruct (w_life wk) eqn:El.
  - pose proof (fuel_bound utc up show hash p i es' w w' t e wk Hr Ht Eb (shut_worker utc up show hash p es w i t e wk H Ht Eb Hs El)) as K.
    change (@steps Sc Zn) with (@of_worker Sc Zn) in K. lia.
  - pose proof (stopped_stays utc up show hash p i es' w w' t e wk Hr Ht Eb ltac:(congruence)) as K. change (@steps Sc Zn) with (@of_worker Sc Zn) in K. rewrite K. cbn. lia.
  - pose proof (stopped_stays utc up show hash p i es' w w' t e wk Hr Ht Eb ltac:(congruence)) as K. change (@steps Sc Zn) with (@of_worker Sc Zn) in K. rewrite K. cbn. lia.
Qed.
Print Assumptions C106_bound.

(** That loops which could leave do leave is needed: a pruner with no rules may go on for ever after the
    shutdown, though it gets all its turns and no call is waiting. *)
Theorem C106_loop_refuted : exists st ev,
  st 0%nat = world_init /\ endless vstep st ev /\ calls_go_on st ev /\ (forall i, just vstep (step_of i) st ev)
  /\ (exists t, nth_error (pr_tasks (wd_process (st 4%nat))) 0 = Some t /\ shut (ta_token t) (program (first 4 ev)))
  /\ forall n t, nth_error (pr_tasks (wd_process (st n))) 0 = Some t -> ~ ended t /\ ~ died t.
Proof.
  exists (loop_states 0 every shown key_of Debug 1000), (loop_events 0 every shown key_of Debug 1000).
  destruct (loop_goes_on 0 every shown key_of Debug 1000) as [[A B] [C [D [[t [E1 [E2 _]]] F]]]]; [discriminate|].
  do 4 (split; [assumption|]). split; [eauto|exact F].
Qed.
Print Assumptions C106_loop_refuted.

(** * C107 A job that was taken is reported, and the report is carried out *)

(** In every endless history in which calls go on and each job gets its turns: a job that a worker has
    taken is reported on and the store has answered the report, unless the worker dies or the job
    cannot be decoded. *)
Theorem C107_done : forall Schedule Zone (utc : Zone) (upcoming : Schedule -> Zone -> time -> option time) show hash p st ev i n k t e wk j,
  st 0%nat = world_init -> endless (world_step utc upcoming show hash p) st ev ->
  calls_go_on st ev -> just (world_step utc upcoming show hash p) (step_with i n) st ev ->
  nth_error (pr_tasks (wd_process (st k))) i = Some t -> ta_body t = BWorker e wk -> In (Taken n (MJob j)) (w_seen wk) ->
  exists m t' wk', (k <= m)%nat /\ nth_error (pr_tasks (wd_process (st m))) i = Some t' /\ ta_body t' = BWorker e wk'
    /\ (w_life wk' = Crashed_worker
        \/ unreadable (xe_codec e) j
        \/ exists a x r, In (Reported n (cl_op x)) (w_seen wk') /\ In a (wd_asks (st m)) /\ ak_task a = i /\ ak_turn a = n
             /\ call_at (st m) i (ak_call a) = Some x /\ cl_pc x = PcDone (RUnit r)).
Proof.
  intros Sc Zn utc up show hash p st ev i n k t e wk j H0 H. exact (job_done utc up show hash p st ev i n k t e wk j (Logic.conj H0 H)).
Qed.
Print Assumptions C107_done.

(** Every call that is made returns. *)
Theorem C107_calls : forall Schedule Zone (utc : Zone) (upcoming : Schedule -> Zone -> time -> option time) show hash p st ev n b s c x,
  st 0%nat = world_init -> endless (world_step utc upcoming show hash p) st ev -> calls_go_on st ev ->
  nth_error (wd_stores (st n)) b = Some s -> nth_error (c_calls s) c = Some x ->
  exists m, (n <= m)%nat /\ forall m', (m <= m')%nat -> has_returned (st m') b c.
Proof.
  intros Sc Zn utc up show hash p st ev n b s c x H0 H Hg Hs Hc.
  destruct (calls_return utc up show hash p st ev (Logic.conj H0 H) Hg n b s c x Hs Hc) as [m [L R]]. exists m. split; [exact L|].
  intros m' L'. exact (still_returned utc up show hash p st ev m m' b c (Logic.conj H0 H) L' R).
Qed.
Print Assumptions C107_calls.

(** The day, the evening and the night: everything comes to its end. *)
Definition night : list (time * world_event Z Z) :=
  evening ++ [ (1210, VRun 0 3); (1211, VAnswer 2 0); (1212, VClose 2); (1213, VFinish 2); (1220, VCompute 1 1220 1220); (1221, VLeave 1) ].
Lemma night_rest : exists w, vrun world_init night = Some w /\ at_rest w.
Proof.
  eexists. split; [vm_compute; reflexivity|]. split; [|split].
  - intros t Ht. cbn in Ht. repeat destruct Ht as [<-|Ht]; try destruct Ht; left; reflexivity.
  - discriminate.
  - intros s c Hs Hc. cbn in Hs. destruct Hs as [<-|[]]. cbn in Hc. repeat destruct Hc as [<-|Hc]; try destruct Hc; eexists; reflexivity.
Qed.
Example C106_example : exists st ev, st 0%nat = world_init /\ endless vstep st ev /\ calls_go_on st ev
  /\ (forall i, just vstep (step_of i) st ev) /\ (forall i n, just vstep (step_with i n) st ev) /\ (forall i, compassionate vstep (eq (VLeave i)) st ev)
  /\ vrun world_init evening = Some (st (length evening)) /\ first (length evening) ev = evening.
Proof.
  destruct night_rest as [w [H R]]. destruct (rest_history 0 every shown key_of Debug 3000 night w H R) as [[A1 A2] [B [C [D [E F]]]]].
  exists (states 0 every shown key_of Debug (then_rest 3000 night)), (then_rest 3000 night). split; [exact A1|]. split; [exact A2|]. do 4 (split; [assumption|]). split.
  - unfold states. rewrite then_first. vm_compute. reflexivity.
  - rewrite then_first. vm_compute. reflexivity.
Qed.
(** In the evening the push worker has a job in hand whose report is under way. *)
Example C107_example : exists w t wk j, vrun world_init evening = Some w /\ nth_error (pr_tasks (wd_process w)) 2 = Some t /\ ta_body t = BWorker push_executor wk
  /\ In (Taken 0 (MJob j)) (w_seen wk) /\ w_flights wk <> [] /\ ~ unreadable (xe_codec push_executor) j.
Proof.
  do 4 eexists. split; [vm_compute; reflexivity|]. split; [reflexivity|]. split; [reflexivity|]. split; [cbn; auto|]. split; [discriminate|].
  intros [K|[K _]]; [discriminate K|apply K; reflexivity].
Qed.
Example C106_bound_example : exists w w' t wk, vrun world_init evening = Some w /\ nth_error (pr_tasks (wd_process w)) 2 = Some t /\ ta_body t = BWorker push_executor wk
  /\ shut (ta_token t) (program evening) /\ vrun w (skipn (length evening) night) = Some w'
  /\ length (filter (fun x => of_worker 2 (snd x)) (skipn (length evening) night)) = 3%nat /\ length (w_flights wk) = 1%nat.
Proof.
  do 4 eexists. split; [vm_compute; reflexivity|]. split; [reflexivity|]. split; [reflexivity|].
  split; [exists 1200, (AShutdown 0); split; [cbn; auto 40|left; reflexivity]|]. split; [vm_compute; reflexivity|]. split; reflexivity.
Qed.
