(** Jobs that are due get taken, if every part of the program gets its turns (C110). *)
From Coq Require Import Lia.
From Verif Require Import Base Chrono Types Query Memory MemSpec MemHist2 MemConc MemConcSpec Codec Builder Runner RunnerSpec
  Ticker Pruner Samples ApiSpec App AppSpec World WorldSpec WorldThms WorldLive FairSpec WorldFair WorldRest WorldDue WorldIdle PropsRunner PropsApp PropsWorld.

(** * C110 Jobs that are due get taken *)

(** In every endless history in which calls go on, the clock runs, and a worker that is at work and has
    not been told to stop gets its turns: at every time there is a later one when no job of its executor
    is overdue, or when it takes one. *)
Theorem C110_taken : forall Schedule Zone (utc : Zone) (upcoming : Schedule -> Zone -> time -> option time) show hash p T st ev i b e n k,
  st 0%nat = world_init -> endless (world_step utc upcoming show hash p) st ev ->
  calls_go_on st ev -> (forall q, just (world_step utc upcoming show hash p) (step_with i q) st ev) ->
  just (world_step utc upcoming show hash p) (eq (VPoll i)) st ev -> time_passes ev ->
  (forall m, (n <= m)%nat -> on_duty (st m) i b e) -> (forall m, (n <= m)%nat -> sound (st m) b) ->
  (forall l, ex_max_concurrency (xe_consts e) = Some l -> 0 <= l) -> (n <= k)%nat ->
  exists m, (k <= m)%nat /\
    (overdue T (ex_name (xe_consts e)) b (st m) = [] \/
     exists tk wk wk' j, nth_error (pr_tasks (wd_process (st m))) i = Some (mk_task b tk (BWorker e wk))
       /\ nth_error (pr_tasks (wd_process (st (S m)))) i = Some (mk_task b tk (BWorker e wk'))
       /\ jobs_taken wk' = jobs_taken wk ++ [j] /\ j_scheduled_at j <= T /\ j_executor j = ex_name (xe_consts e)
       /\ (length (overdue T (ex_name (xe_consts e)) b (st (S m))) < length (overdue T (ex_name (xe_consts e)) b (st m)))%nat).
Proof.
  intros Sc Zn utc up show hash p T st ev i b e n k H0 H Hg Hj Hp Ht Hon Hso Hl Hk.
  exact (due_taken utc up show hash p T st ev i b e n (Logic.conj H0 H) Hg Hj Hp Ht Hon Hso Hl k Hk).
Qed.
Print Assumptions C110_taken.

(** If no more jobs scheduled for [T] or before come in, there is a time after which none waits: jobs
    scheduled for later do not hold up those that are due, however many there are. *)
Theorem C110_cleared : forall Schedule Zone (utc : Zone) (upcoming : Schedule -> Zone -> time -> option time) show hash p T st ev i b e n,
  st 0%nat = world_init -> endless (world_step utc upcoming show hash p) st ev ->
  calls_go_on st ev -> (forall q, just (world_step utc upcoming show hash p) (step_with i q) st ev) ->
  just (world_step utc upcoming show hash p) (eq (VPoll i)) st ev -> time_passes ev ->
  (forall m, (n <= m)%nat -> on_duty (st m) i b e) -> (forall m, (n <= m)%nat -> sound (st m) b) ->
  (forall l, ex_max_concurrency (xe_consts e) = Some l -> 0 <= l) ->
  (forall m, (n <= m)%nat -> (length (overdue T (ex_name (xe_consts e)) b (st (S m))) <= length (overdue T (ex_name (xe_consts e)) b (st m)))%nat) ->
  exists m, (n <= m)%nat /\ forall m', (m <= m')%nat -> overdue T (ex_name (xe_consts e)) b (st m') = [].
Proof.
  intros Sc Zn utc up show hash p T st ev i b e n H0 H. exact (due_cleared utc up show hash p T st ev i b e n (Logic.conj H0 H)).
Qed.
Print Assumptions C110_cleared.

(** A job is enqueued, waits until it is due, and is run; from then on the worker has nothing to do and is polled for ever. *)
Definition quiet : list (time * world_event Z Z) :=
  [ (1, VStore); (2, VApp (ANew 0)); (3, VApp (AExecutor 0 mail_executor));
    (5, VCall 0 (OpEnqueue (req mail 0 10))); (6, VRun 0 0); (7, VRun 0 0); (8, VRun 0 0); (9, VRun 0 0);
    (20, VPoll 0); (21, VPoll 0); (22, VPoll 0); (23, VStart 0 0); (30, VEnd 0 0 31 32 ODone); (35, VRun 0 1); (36, VAnswer 0 0) ].
Lemma quiet_idle : exists w, vrun world_init quiet = Some w /\ idle mail_executor w.
Proof.
  eexists. split; [vm_compute; reflexivity|]. do 5 eexists. split; [reflexivity|]. split; [reflexivity|]. split; [reflexivity|]. split; [reflexivity|].
  split; [reflexivity|]. split; [reflexivity|]. split; [reflexivity|]. split; [reflexivity|]. split; [reflexivity|].
  split; [|split; [|split; [reflexivity|exact Logic.I]]].
  - intros j Hj K. cbn in Hj. destruct Hj as [<-|[]]. destruct K; discriminate.
  - intros c Hc. cbn in Hc. repeat destruct Hc as [<-|Hc]; try destruct Hc; eexists; reflexivity.
Qed.
(** From the eighth event on: the worker is on duty and its store sound, and no overdue job comes in. *)
Lemma quiet_steps k : (8 <= k)%nat -> (k <= 15)%nat ->
  exists w, vrun world_init (firstn k quiet) = Some w /\ on_duty w 0 0 mail_executor /\ sound w 0
    /\ length (overdue 10 mail 0 w) = if Nat.leb k 10 then 1%nat else 0%nat.
Proof.
  intros L1 L2. do 8 (destruct k as [|k]; [lia|]).
  do 8 (destruct k as [|k]; [eexists; split; [vm_compute; reflexivity|]; split;
    [do 2 eexists; split; [reflexivity|]; split; reflexivity|]; split; [eexists; split; reflexivity|reflexivity]|]). lia.
Qed.
Lemma idle_quiet (w : world Z Z) : idle mail_executor w -> on_duty w 0 0 mail_executor /\ sound w 0 /\ overdue 10 mail 0 w = [].
Proof.
  intros [tk [wk [s [sb [ph [I1 [I2 [I3 [I4 [I5 [I6 [I7 [I8 [I9 [I10 _]]]]]]]]]]]]]]]. split; [|split].
  - exists tk, wk. rewrite I1. split; [reflexivity|]. split; [|exact I4]. unfold polls in I2. destruct (w_life wk); [reflexivity|discriminate..].
  - exists s. rewrite I6. auto.
  - unfold overdue. rewrite I6. cbn [nth_error]. clear - I10. induction (jobs_of (c_mem s)) as [|j l IH]; [reflexivity|]. cbn [filter].
    destruct (waitingb j) eqn:E; [destruct (I10 j (or_introl eq_refl)); apply waitingb_iff; exact E|]. cbn [andb]. apply IH. intros x Hx. apply I10. right. exact Hx.
Qed.
Example C110_example : exists st ev, st 0%nat = world_init /\ endless vstep st ev /\ calls_go_on st ev
  /\ (forall q, just vstep (step_with 0 q) st ev) /\ just vstep (eq (VPoll 0)) st ev /\ time_passes ev
  /\ (forall m, (8 <= m)%nat -> on_duty (st m) 0 0 mail_executor) /\ (forall m, (8 <= m)%nat -> sound (st m) 0)
  /\ (forall l, ex_max_concurrency (xe_consts mail_executor) = Some l -> 0 <= l)
  /\ (forall m, (8 <= m)%nat -> (length (overdue (10%Z) (ex_name (xe_consts mail_executor)) 0 (st (S m))) <= length (overdue (10%Z) (ex_name (xe_consts mail_executor)) 0 (st m)))%nat)
  /\ length (overdue (10%Z) (ex_name (xe_consts mail_executor)) 0 (st 8%nat)) = 1%nat /\ first 15 ev = quiet.
Proof.
  destruct quiet_idle as [w [H R]]. destruct (idle_history 0 every shown key_of Debug 100 quiet w mail_executor H R) as [[A1 A2] [B [C [D [E [F G]]]]]].
  exists (states 0 every shown key_of Debug (then_poll 100 quiet)), (then_poll 100 quiet). change (ex_name (xe_consts mail_executor)) with mail.
  assert (K : forall m, (8 <= m)%nat -> on_duty (states 0 every shown key_of Debug (then_poll 100 quiet) m) 0 0 mail_executor
    /\ sound (states 0 every shown key_of Debug (then_poll 100 quiet) m) 0
    /\ length (overdue 10 mail 0 (states 0 every shown key_of Debug (then_poll 100 quiet) m)) = if Nat.leb m 10 then 1%nat else 0%nat).
  { intros m L. destruct (Nat.le_gt_cases m 15) as [L2|L2].
    - destruct (quiet_steps m L L2) as [w' [W1 W2]]. destruct (G m L2) as [_ G2]. rewrite W1 in G2. injection G2 as <-. exact W2.
    - destruct (idle_quiet _ (F m ltac:(cbn; lia))) as [K1 [K2 K3]]. rewrite K3. split; [exact K1|]. split; [exact K2|].
      destruct (Nat.leb_spec m 10); [lia|reflexivity]. }
  do 3 (split; [assumption|]). split; [exact (C 0%nat)|]. do 2 (split; [assumption|]).
  split; [intros m L; apply K, L|]. split; [intros m L; apply (K m L)|]. split; [intros l El; injection El as <-; lia|].
  split; [|split].
  - intros m L. rewrite (proj2 (proj2 (K m L))), (proj2 (proj2 (K (S m) ltac:(lia)))). destruct (Nat.leb_spec m 10), (Nat.leb_spec (S m) 10); lia.
  - apply K. lia.
  - apply (G 15%nat). cbn. lia.
Qed.
