(** Jobs that are due on Postgres get taken, if every part gets its turns (C111). *)
From Coq Require Import Lia.
From Verif Require Import FxHash PgSpec PgProofs PropsPgConc.
From Verif Require Import Base Chrono Types Query Memory MemSpec PgRow PgQuery Pg PgConc PgConcSpec PgListen Codec Builder Runner RunnerSpec
  Ticker Pruner Samples ApiSpec App AppSpec World WorldSpec Fleet FleetSpec FleetThms FleetLive FleetWork FairSpec FleetFair FleetRest FleetDue FleetIdle
  PropsRunner PropsApp PropsWorld PropsPg PropsFleet PropsFleetFair.

(** * C111 Jobs that are due on Postgres get taken *)

(** In every endless history of processes that share Postgres in which calls move, the clock runs, and a
    worker that is at work and has not been told to stop gets its turns, consider the jobs that wait for
    its executor with priority [P] or one that comes before it.  Unless somebody locks them, puts them off
    past [T], or queries fail, at every time there is a later one when none of them is overdue, or when
    one of them stops waiting. *)
Theorem C111_taken : forall Schedule Zone (utc : Zone) (upcoming : Schedule -> Zone -> time -> option time) show hash ident t0 P T st ev g b e n k,
  sound_table t0 -> st 0%nat = fleet_init t0 -> endless (fleet_step utc upcoming show hash ident) st ev ->
  calls_move st -> (forall q, just (fleet_step utc upcoming show hash ident) (fleet_step_with g q) st ev) ->
  just (fleet_step utc upcoming show hash ident) (eq (FPoll g)) st ev -> time_passes ev ->
  storable (ex_name (xe_consts e)) = true -> (forall l, ex_max_concurrency (xe_consts e) = Some l -> 0 <= l) ->
  (forall m, (n <= m)%nat -> fleet_on_duty (st m) g b e) ->
  (forall m r, (n <= m)%nat -> In r (in_line P (ex_name (xe_consts e)) (st m)) -> 0 <= r_attempt r < 2147483647) ->
  (forall m r r', (n <= m)%nat -> In r (in_line P (ex_name (xe_consts e)) (st m)) -> In r' (in_line P (ex_name (xe_consts e)) (st (S m))) ->
     r_id r' = r_id r -> r_scheduled_at r' <= Z.max T (r_scheduled_at r)) ->
  (forall m, (n <= m)%nat -> left_to_streams P (ex_name (xe_consts e)) (st m)) ->
  (forall m, (n <= m)%nat -> streams_spared g (st m) (snd (ev m))) -> (n <= k)%nat ->
  exists m, (k <= m)%nat /\
    ((forall r, In r (in_line P (ex_name (xe_consts e)) (st m)) -> T < r_scheduled_at r)
     \/ exists id, In id (ids_in_line P (ex_name (xe_consts e)) (st m)) /\ ~ In id (ids_in_line P (ex_name (xe_consts e)) (st (S m)))).
Proof.
  intros Sc Zn utc up show hash ident t0 P T st ev g b e n k Hs H0 H Hg Hj Hp Ht Hst Hl Hon Hok Hre Hlk Hsp Hk.
  exact (line_moves utc up show hash ident t0 Hs P T st ev g b e n (Logic.conj H0 H) Hg Hj Hp Ht Hst Hl Hon Hok Hre Hlk Hsp k Hk).
Qed.
Print Assumptions C111_taken.

(** If no more such jobs come in, and they are due by [T], there is a time after which none waits: jobs
    whose priority comes after do not hold them up, however many there are. *)
Theorem C111_cleared : forall Schedule Zone (utc : Zone) (upcoming : Schedule -> Zone -> time -> option time) show hash ident t0 P T st ev g b e n,
  sound_table t0 -> st 0%nat = fleet_init t0 -> endless (fleet_step utc upcoming show hash ident) st ev ->
  calls_move st -> (forall q, just (fleet_step utc upcoming show hash ident) (fleet_step_with g q) st ev) ->
  just (fleet_step utc upcoming show hash ident) (eq (FPoll g)) st ev -> time_passes ev ->
  storable (ex_name (xe_consts e)) = true -> (forall l, ex_max_concurrency (xe_consts e) = Some l -> 0 <= l) ->
  (forall m, (n <= m)%nat -> fleet_on_duty (st m) g b e) ->
  (forall m r, (n <= m)%nat -> In r (in_line P (ex_name (xe_consts e)) (st m)) -> r_scheduled_at r <= T /\ 0 <= r_attempt r < 2147483647) ->
  (forall m, (n <= m)%nat -> left_to_streams P (ex_name (xe_consts e)) (st m)) ->
  (forall m, (n <= m)%nat -> streams_spared g (st m) (snd (ev m))) ->
  (forall m, (n <= m)%nat -> incl (ids_in_line P (ex_name (xe_consts e)) (st (S m))) (ids_in_line P (ex_name (xe_consts e)) (st m))) ->
  exists m, (n <= m)%nat /\ forall m', (m <= m')%nat -> in_line P (ex_name (xe_consts e)) (st m') = [].
Proof.
  intros Sc Zn utc up show hash ident t0 P T st ev g b e n Hs H0 H. exact (line_clears utc up show hash ident t0 Hs P T st ev g b e n (Logic.conj H0 H)).
Qed.
Print Assumptions C111_cleared.

(** Two jobs are enqueued, the one of the better priority last; both are taken, the better one first, and run; from then
    on the worker has nothing to do and is polled for ever. *)
Definition two_jobs : list (time * fleet_event Z Z) :=
  [ (1 * ms, FNode); (2 * ms, FOpen 0); (3 * ms, FApp 0 (ANew 0)); (4 * ms, FApp 0 (AExecutor 0 mail_executor));
    (5 * ms, FCall (OpEnqueue (req mail 4 (10 * ms)))) ] ++ runs 0 4 6
  ++ [(5 * ms, FCall (OpEnqueue (req mail 2 (11 * ms))))] ++ runs 1 4 7.
Definition both_done : list (time * fleet_event Z Z) :=
  two_jobs ++ looks 0 3 20 ++ runs 2 3 21 ++ looks 0 1 22 ++ [(23 * ms, FStart 0 0); (30 * ms, FEnd 0 0 (31 * ms) (32 * ms) ODone)] ++ runs 3 2 33 ++ [(34 * ms, FAnswer 0 0)]
  ++ looks 0 4 40 ++ runs 4 3 41 ++ looks 0 1 42 ++ [(43 * ms, FStart 0 1); (50 * ms, FEnd 0 1 (51 * ms) (52 * ms) ODone)] ++ runs 5 2 53 ++ [(54 * ms, FAnswer 0 1)].
Lemma done_idle : exists w, frun (fleet_init tbl_init) both_done = Some w /\ fleet_idle mail_executor w.
Proof.
  eexists. split; [vm_compute; reflexivity|]. do 4 eexists. do 5 (split; [reflexivity|]). do 4 (split; [reflexivity|]). split; [|split; [|exact Logic.I]].
  - intros r Hr K. cbn in Hr. destruct K as [K _]. repeat destruct Hr as [<-|Hr]; try destruct Hr; destruct K; discriminate.
  - intros c Hc. cbn in Hc. repeat destruct Hc as [<-|Hc]; try destruct Hc; eexists; reflexivity.
Qed.
(** The worker is on duty; the jobs in line are due and locked by streams only. *)
Definition waits_well (w : fleet Z Z) : bool :=
  match task_of 0 w with
  | Some (mk_task _ _ (BWorker _ wk)) => match w_life wk with Working => negb (w_cancelled wk) | _ => false end
  | _ => false
  end
  && forallb (fun r => (r_scheduled_at r <=? 11 * ms) && (0 <=? r_attempt r) && (r_attempt r <? 2147483647)) (in_line 4 mail w)
  && forallb (fun x => match qc_op x with OpLoad _ => true | _ => forallb (fun id => negb (existsb (Z.eqb id) (ids_in_line 4 mail w))) (row_locks x) end) (q_calls (n_db (fl_net w))).
Definition line_at (k : nat) : list Z := if Nat.leb k 19 then [1; 2] else if Nat.leb k 32 then [1] else [].
Lemma done_steps : forallb (fun k => match frun (fleet_init tbl_init) (firstn k both_done) with
  | Some w => waits_well w && (if list_eq_dec Z.eq_dec (ids_in_line 4 mail w) (line_at k) then true else false)
  | None => false end) (seq 14 26) = true.
Proof. vm_compute. reflexivity. Qed.
Lemma waits_spec w : waits_well w = true ->
  (forall b tk wk, task_of 0 w = Some (mk_task b tk (BWorker mail_executor wk)) -> fleet_on_duty w 0 b mail_executor)
  /\ (forall r, In r (in_line 4 mail w) -> r_scheduled_at r <= 11 * ms /\ 0 <= r_attempt r < 2147483647) /\ left_to_streams 4 mail w.
Proof.
  unfold waits_well. intro H. apply andb_prop in H. destruct H as [H H3]. apply andb_prop in H. destruct H as [H1 H2]. rewrite forallb_forall in H2, H3. split; [|split].
  - intros b tk wk E. rewrite E in H1. exists tk, wk. split; [exact E|]. destruct (w_life wk); try discriminate. split; [reflexivity|]. destruct (w_cancelled wk); [discriminate|reflexivity].
  - intros r Hr. specialize (H2 r Hr). rewrite !andb_true_iff, !Z.leb_le, Z.ltb_lt in H2. tauto.
  - intros id x Hi Hx Hl. specialize (H3 x Hx). destruct (qc_op x); try (eexists; reflexivity); rewrite forallb_forall in H3; specialize (H3 id Hl);
      assert (B : existsb (Z.eqb id) (ids_in_line 4 mail w) = true) by (apply existsb_exists; exists id; split; [exact Hi|apply Z.eqb_refl]); rewrite B in H3; discriminate.
Qed.
Lemma idle_waits (w : fleet Z Z) : fleet_idle mail_executor w -> waits_well w = true /\ ids_in_line 4 mail w = [].
Proof.
  intros [b [tk [wk [s [I1 [I2 [I3 [I4 [I5 [I6 [I7 [I8 [I9 [I10 [I11 I12]]]]]]]]]]]]]]].
  assert (E : in_line 4 mail w = []).
  { destruct (in_line 4 mail w) as [|r l] eqn:E; [reflexivity|]. assert (Hr : In r (in_line 4 mail w)) by (rewrite E; left; reflexivity).
    apply in_line_iff in Hr. destruct Hr as [R1 [R2 _]]. destruct (I10 r R1 R2). }
  split; [|unfold ids_in_line; rewrite E; reflexivity]. unfold waits_well. rewrite I2, E, I5. cbn [forallb]. unfold polls in I3. destruct (w_life wk); try discriminate. cbn [negb andb].
  apply forallb_forall. intros x Hx. destruct (I11 x Hx) as [r Hr]. destruct x as [o pc]. cbn [qc_pc] in Hr. subst pc. destruct o; reflexivity.
Qed.
Lemma two_waiting : exists w b tk wk, frun (fleet_init tbl_init) two_jobs = Some w /\ task_of 0 w = Some (mk_task b tk (BWorker mail_executor wk)).
Proof. do 4 eexists. split; [vm_compute; reflexivity|reflexivity]. Qed.
Example C111_example : exists st ev b, sound_table tbl_init /\ st 0%nat = fleet_init tbl_init /\ endless fstep st ev /\ calls_move st
  /\ (forall q, just fstep (fleet_step_with 0 q) st ev) /\ just fstep (eq (FPoll 0)) st ev /\ time_passes ev
  /\ storable (ex_name (xe_consts mail_executor)) = true /\ (forall l, ex_max_concurrency (xe_consts mail_executor) = Some l -> 0 <= l)
  /\ (forall m, (14 <= m)%nat -> fleet_on_duty (st m) 0 b mail_executor)
  /\ (forall m r, (14 <= m)%nat -> In r (in_line 4 (ex_name (xe_consts mail_executor)) (st m)) -> r_scheduled_at r <= 11 * ms /\ 0 <= r_attempt r < 2147483647)
  /\ (forall m, (14 <= m)%nat -> left_to_streams 4 (ex_name (xe_consts mail_executor)) (st m))
  /\ (forall m, (14 <= m)%nat -> streams_spared 0 (st m) (snd (ev m)))
  /\ (forall m, (14 <= m)%nat -> incl (ids_in_line 4 (ex_name (xe_consts mail_executor)) (st (S m))) (ids_in_line 4 (ex_name (xe_consts mail_executor)) (st m)))
  /\ ids_in_line 4 (ex_name (xe_consts mail_executor)) (st 14%nat) = [1; 2] /\ first 39 ev = both_done.
Proof.
  destruct done_idle as [w [H R]]. destruct (fidle_history 0 every shown key_of fx_identifier tbl_init (100 * ms) both_done w mail_executor H R) as [[A1 A2] [B [C [D [E [F G]]]]]].
  set (ev := then_looks (100 * ms) both_done) in *. set (st := states 0 every shown key_of fx_identifier tbl_init ev) in *.
  change (ex_name (xe_consts mail_executor)) with mail.
  assert (K : forall m, (14 <= m)%nat -> waits_well (st m) = true /\ ids_in_line 4 mail (st m) = line_at m).
  { intros m L. destruct (Nat.le_gt_cases m 39) as [L2|L2].
    - pose proof done_steps as S. rewrite forallb_forall in S. specialize (S m ltac:(apply in_seq; lia)). destruct (G m L2) as [_ G2]. rewrite G2 in S. apply andb_prop in S.
      destruct S as [S1 S2]. destruct (list_eq_dec Z.eq_dec (ids_in_line 4 mail (st m)) (line_at m)); [auto|discriminate].
    - destruct (idle_waits _ (F m ltac:(cbn; lia))) as [K1 K2]. rewrite K2. split; [exact K1|]. unfold line_at. destruct (Nat.leb_spec m 19), (Nat.leb_spec m 32); try lia. reflexivity. }
  assert (exists b tk wk, task_of 0 (st 14%nat) = Some (mk_task b tk (BWorker mail_executor wk))) as [b [tk [wk Ht]]].
  { destruct (G 14%nat ltac:(cbn; lia)) as [_ G2]. change (firstn 14 both_done) with two_jobs in G2.
    destruct two_waiting as [w' [b [tk [wk [Q1 Q2]]]]]. rewrite Q1 in G2. injection G2 as <-. eauto. }
  exists st, ev, b. split; [apply sound_init|]. do 3 (split; [assumption|]). split; [exact (C 0%nat)|]. do 2 (split; [assumption|]).
  split; [reflexivity|]. split; [intros l El; injection El as <-; lia|]. split; [|split; [|split; [|split; [|split; [|split]]]]].
  - intros m L. destruct (worker_stays 0 every shown key_of fx_identifier tbl_init st ev 0 _ _ _ _ _ (Logic.conj A1 A2) Ht m L) as [wk' Ht'].
    exact (proj1 (waits_spec _ (proj1 (K m L))) _ _ _ Ht').
  - intros m r L. apply (waits_spec _ (proj1 (K m L))).
  - intros m L. apply (waits_spec _ (proj1 (K m L))).
  - intros m L. assert (P : forallb (fun x : time * fleet_event Z Z => match snd x with FError _ | FAbort _ _ => false | _ => true end) both_done = true) by reflexivity.
    rewrite forallb_forall in P. destruct (Nat.lt_ge_cases m 39) as [L2|L2].
    + specialize (P (ev m) ltac:(unfold ev, then_looks; apply nth_In; cbn; lia)). destruct (ev m) as [tm x]. cbn [snd] in P |- *. destruct x; try exact Logic.I; discriminate P.
    + unfold ev, then_looks. rewrite nth_overflow by (cbn; lia). exact Logic.I.
  - intros m L. rewrite (proj2 (K m L)), (proj2 (K (S m) ltac:(lia))). unfold line_at.
    destruct (Nat.leb_spec m 19), (Nat.leb_spec (S m) 19), (Nat.leb_spec m 32), (Nat.leb_spec (S m) 32); try lia; clear; intros x Hx; cbn [In] in Hx |- *; tauto.
  - apply (K 14%nat). lia.
  - apply (G 39%nat). cbn. lia.
Qed.
