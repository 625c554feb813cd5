(** Properties of the [Rexecutor] object (C78-C83). *)
From Coq Require Import Lia.
From Verif Require Import Base Chrono Types Query Memory MemSpec Codec Builder GlobalBackend Runner RunnerSpec WorkerProofs
  Ticker SchedSpec SchedProofs Pruner Samples ApiProofs App AppSpec AppProofs AppEnd PropsApi PropsRunner.

(** Sample executors and schedules: every so many nanoseconds, whatever the zone. *)
Definition mail_executor : executor := mk_executor string Z text_codec mail_fns (mk_exec_consts mail 3 (Some 1) None).
Definition push_executor : executor := mk_executor string Z text_codec mail_fns (exec_defaults push).
Definition every (period zone t : Z) : option time := Some ((t / period + 1) * period).
Notation arun := (app_run 0 every shown).
Notation astep := (app_step 0 every shown).

(** * C78 What is started *)

(** The tasks of a process are those its calls asked for, in that order, each with the token of the
    [Rexecutor] it was asked of and on the backend that one was made with. *)
Theorem C78_tasks : forall Schedule Zone (utc : Zone) (upcoming : Schedule -> Zone -> time -> option time) show es s rs,
  app_run utc upcoming show process_init es = Some (s, rs) ->
  map (fun t => (ta_token t, purpose t)) (pr_tasks s) = flat_map (fun x => asked utc (snd x)) es
  /\ (forall t, In t (pr_tasks s) -> nth_error (made es) (ta_token t) = Some (ta_backend t))
  /\ length (made es) = length (pr_rexecutors s).
Proof.
  intros Sc Zn utc up show es s rs H. destruct (run_inv utc up show es s rs H) as [Hm Ht Hb _ _ _ _].
  split; [exact Ht|]. split; [exact Hb|]. rewrite <- Hm. apply map_length.
Qed.
Print Assumptions C78_tasks.

(** A call starts new tasks at once and leaves the others alone. *)
Theorem C78_fresh : forall Schedule Zone (utc : Zone) (upcoming : Schedule -> Zone -> time -> option time) show now s ev s' r,
  app_step utc upcoming show now s ev = Some (s', r) -> asked utc ev <> [] ->
  exists new, pr_tasks s' = pr_tasks s ++ new /\ Forall (just_started now) new
    /\ map (fun t => (ta_token t, purpose t)) new = asked utc ev
    /\ pr_rexecutors s' = pr_rexecutors s /\ pr_cell s' = pr_cell s /\ r = ROk tt.
Proof.
  intros Sc Zn utc up show now s ev s' r H Ha.
  assert (Hr : r = ROk tt).
  { destruct ev; cbn in Ha; try congruence; cbn [app_step] in H; unfold with_owned in H;
      (destruct (owned h s) as [[x g]|]; [|discriminate]); injection H as _ <-; reflexivity. }
  destruct (step_shape utc up show now s ev s' r H) as [b -> _ _ _ | h x g new En Es E2 E3 E1 Hn Has _ _ _ | h x _ [-> | ->] _ _ _ _
    | h x sl _ _ _ _ [[-> _]|[_ [[-> _]|[-> _]]]] | i t t' _ _ _ _ [[e [-> _]]|[e [-> _]]]]; try (cbn in Ha; congruence).
  exists new. split; [exact E1|]. split; [|auto]. apply Forall_forall. intros t Ht. apply (Hn t Ht).
Qed.
Print Assumptions C78_fresh.

(** Each task lives as the job runner and the two loops do on their own: its history is one of theirs,
    in which it was told to stop only if its [Rexecutor] was shut down. *)
Theorem C78_lives : forall Schedule Zone (utc : Zone) (upcoming : Schedule -> Zone -> time -> option time) show es s rs t,
  app_run utc upcoming show process_init es = Some (s, rs) -> In t (pr_tasks s) ->
  match ta_body t with
  | BWorker e w =>
      exists wes, worker_run (xe_codec e) (xe_fns e) show (ex_max_concurrency (xe_consts e)) worker_start wes = Some w
        /\ (In WCancel wes -> shut (ta_token t) es)
  | BCron e sc z data k =>
      exists n0 tes, tick_run (upcoming sc z) (ticker_start n0) tes = Some k /\ (In Cancel tes -> shut (ta_token t) es)
  | BPruner sc cfg k =>
      exists n0 tes, tick_run (upcoming sc utc) (ticker_start n0) tes = Some k /\ (In Cancel tes -> shut (ta_token t) es)
  end.
Proof.
  intros Sc Zn utc up show es s rs t H Hi. destruct (run_inv utc up show es s rs H) as [_ _ _ Hc _ _ Hok].
  specialize (Hok t Hi).
  assert (Hs : token_cancelled t s = true -> shut (ta_token t) es).
  { unfold token_cancelled. destruct (nth_error (pr_rexecutors s) (ta_token t)) as [x|] eqn:E; [|discriminate]. apply (Hc _ _ E). }
  unfold task_ok in Hok. destruct (ta_body t).
  - destruct Hok as [wes [H1 [H2 _]]]. exists wes. auto.
  - destruct Hok as [n0 [tes [H1 H2]]]. exists n0, tes. auto.
  - destruct Hok as [n0 [tes [H1 H2]]]. exists n0, tes. auto.
Qed.
Print Assumptions C78_lives.

Definition start_events : list (time * app_event Z Z) :=
  [ (1, ANew 7); (2, AExecutor 0 push_executor); (3, ANew 8); (4, ACron 1 mail_executor 1000 "data"%string);
    (5, ACronIn 0 mail_executor 500 "other"%string 3); (6, APruner 1 100 config_new) ].
Example C78_example : exists s rs,
  arun process_init start_events = Some (s, rs)
  /\ map (fun t => (ta_token t, ta_backend t, purpose t)) (pr_tasks s)
     = [ (0%nat, 7%nat, RunsJobs push_executor); (1%nat, 8%nat, FiresCron mail_executor 1000 0 "data"%string);
         (1%nat, 8%nat, RunsJobs mail_executor); (0%nat, 7%nat, FiresCron mail_executor 500 3 "other"%string);
         (0%nat, 7%nat, RunsJobs mail_executor); (1%nat, 8%nat, Prunes 100 config_new) ]
  /\ asked (Schedule := Z) (Zone := Z) 0 (APruner 1 100 config_new) <> [].
Proof. do 2 eexists. split; [reflexivity|]. split; [reflexivity|discriminate]. Qed.

(** * C79 Shutting down *)

(** A task that is still at work has been told to stop exactly if its own [Rexecutor] was shut down
    (or the guard made of it dropped): a worker's stream is closed to it, a loop may stop. *)
Theorem C79_told_exactly : forall Schedule Zone (utc : Zone) (upcoming : Schedule -> Zone -> time -> option time) show es s rs i t,
  app_run utc upcoming show process_init es = Some (s, rs) -> nth_error (pr_tasks s) i = Some t ->
  match ta_body t with
  | BWorker _ w => w_life w = Working -> (w_cancelled w = true <-> shut (ta_token t) es)
  | BCron _ _ _ _ k | BPruner _ _ k =>
      (exists n u, tk_phase k = Sleeping n u) ->
      ((exists s' t', app_step utc upcoming show 0 s (ATick i Cancel) = Some (s', ROk tt)
          /\ nth_error (pr_tasks s') i = Some t' /\ ended t') <-> shut (ta_token t) es)
  end.
Proof.
  intros Sc Zn utc up show es s rs i t H Hn. destruct (run_inv utc up show es s rs H) as [Hm _ Hb Hc _ _ Hok].
  assert (Hi : In t (pr_tasks s)) by (eapply nth_error_In; exact Hn). specialize (Hok t Hi).
  assert (Hs : token_cancelled t s = true <-> shut (ta_token t) es).
  { specialize (Hb t Hi). rewrite <- Hm, nth_error_map in Hb. unfold token_cancelled.
    destruct (nth_error (pr_rexecutors s) (ta_token t)) as [x|] eqn:E; [|discriminate]. apply (Hc _ _ E). }
  unfold task_ok in Hok. destruct t as [tb tk [e w|e sc z data k|sc cfg k]]; cbn [ta_body ta_token] in *.
  - destruct Hok as [wes [_ [_ H3]]]. intro Hl. rewrite (H3 Hl). exact Hs.
  - intros [n [u Hp]]. rewrite <- Hs. cbn [app_step]. rewrite Hn. unfold tick_task_step. cbn [ta_body ta_token ta_backend].
    destruct (token_cancelled _ s).
    + split; [reflexivity|]. intros _. unfold tick_step. rewrite Hp. cbn [put_task]. do 2 eexists. split; [reflexivity|].
      cbn [pr_tasks]. split; [eapply nth_set_same; exact Hn|]. reflexivity.
    + split; [intros [s' [t' [K _]]]; discriminate|discriminate].
  - intros [n [u Hp]]. rewrite <- Hs. cbn [app_step]. rewrite Hn. unfold tick_task_step. cbn [ta_body ta_token ta_backend].
    destruct (token_cancelled _ s).
    + split; [reflexivity|]. intros _. unfold tick_step. rewrite Hp. cbn [put_task]. do 2 eexists. split; [reflexivity|].
      cbn [pr_tasks]. split; [eapply nth_set_same; exact Hn|]. reflexivity.
    + split; [intros [s' [t' [K _]]]; discriminate|discriminate].
Qed.
Print Assumptions C79_told_exactly.

(** A shutdown changes nothing else: no task of another [Rexecutor], no other [Rexecutor], not the
    global backend; and what its own workers are doing goes on. *)
Theorem C79_nothing_else : forall Schedule Zone (utc : Zone) (upcoming : Schedule -> Zone -> time -> option time) show now s ev s' r h,
  app_step utc upcoming show now s ev = Some (s', r) -> shuts h ev ->
  (forall i t, nth_error (pr_tasks s) i = Some t ->
     exists t', nth_error (pr_tasks s') i = Some t' /\ (ta_token t <> h -> t' = t)
       /\ match ta_body t, ta_body t' with
          | BWorker e w, BWorker e' w' =>
              e' = e /\ w_flights w' = w_flights w /\ w_seen w' = w_seen w /\ w_life w' = w_life w
              /\ w_open w' = w_open w /\ w_transit w' = w_transit w
          | b, b' => b' = b
          end)
  /\ length (pr_tasks s') = length (pr_tasks s)
  /\ (forall h', h' <> h -> nth_error (pr_rexecutors s') h' = nth_error (pr_rexecutors s) h')
  /\ pr_cell s' = pr_cell s.
Proof.
  intros Sc Zn utc up show now s ev s' r h H Hs.
  destruct (step_shape utc up show now s ev s' r H) as [b -> _ _ _ | h0 x g new _ _ _ _ _ _ _ Hns _ _ | h0 x En Hsh _ E2 E1 E3
    | h0 x sl _ _ _ _ [[-> _]|[_ [[-> _]|[-> _]]]] | i t t' _ _ _ _ [[e [-> _]]|[e [-> _]]]];
    try (destruct Hs as [K|K]; discriminate); [destruct (Hns h Hs)|].
  assert (h0 = h) as -> by (eapply shuts_eq; eassumption).
  split; [|split; [rewrite E1; apply map_length|split; [|exact E3]]].
  - intros i t Hn. exists (told show h t). rewrite E1, nth_error_map, Hn. split; [reflexivity|].
    split; [intro K; apply told_other, K|]. unfold told. destruct (Nat.eqb (ta_token t) h); [|destruct (ta_body t); auto 10].
    destruct t as [tb tk [e w|e sc z data k|sc cfg k]]; cbn [ta_body]; auto.
    unfold worker_step. destruct (w_life w) eqn:El; cbn; auto 10.
  - intros h' Hne. rewrite E2. apply nth_set_nth_other. congruence.
Qed.
Print Assumptions C79_nothing_else.

(** After the shutdown its workers take no job any more. *)
Theorem C79_no_more_jobs : forall Schedule Zone (utc : Zone) (upcoming : Schedule -> Zone -> time -> option time) show es s rs es' s' rs' i t,
  app_run utc upcoming show process_init es = Some (s, rs) -> nth_error (pr_tasks s) i = Some t -> shut (ta_token t) es ->
  app_run utc upcoming show s es' = Some (s', rs') ->
  exists t', nth_error (pr_tasks s') i = Some t' /\ taken_by t' = taken_by t.
Proof.
  intros Sc Zn utc up show es s rs es' s' rs' i t H Hn Hs H'. destruct (run_inv utc up show es s rs H) as [Hm _ Hb Hc _ _ Hok].
  assert (Hi : In t (pr_tasks s)) by (eapply nth_error_In; exact Hn). specialize (Hok t Hi).
  assert (Hq : quiet t).
  { eapply ok_quiet; [exact Hok|]. specialize (Hb t Hi). rewrite <- Hm, nth_error_map in Hb. unfold token_cancelled.
    destruct (nth_error (pr_rexecutors s) (ta_token t)) as [x|] eqn:E; [|discriminate]. apply (Hc _ _ E), Hs. }
  destruct (quiet_run utc up show es' s s' rs' i t H' Hn Hq) as [t' [H1 [_ H2]]]. eauto.
Qed.
Print Assumptions C79_no_more_jobs.

(** After the shutdown each of its tasks can come to an end by its own steps, whatever it is doing. *)
Theorem C79_can_end : forall Schedule Zone (utc : Zone) (upcoming : Schedule -> Zone -> time -> option time) show es s rs i t,
  app_run utc upcoming show process_init es = Some (s, rs) -> nth_error (pr_tasks s) i = Some t -> shut (ta_token t) es ->
  (forall e l, purpose t = RunsJobs e -> ex_max_concurrency (xe_consts e) = Some l -> 0 <= l) ->
  exists es' s' rs' t', app_run utc upcoming show s es' = Some (s', rs')
    /\ Forall (fun x => (exists e, snd x = AWorker i e) \/ (exists e, snd x = ATick i e)) es'
    /\ nth_error (pr_tasks s') i = Some t' /\ (ended t' \/ died t').
Proof.
  intros Sc Zn utc up show es s rs i t H Hn Hs Hlim. destruct (run_inv utc up show es s rs H) as [Hm _ Hb Hc _ _ Hok].
  assert (Hi : In t (pr_tasks s)) by (eapply nth_error_In; exact Hn). specialize (Hok t Hi).
  assert (Hx : token_cancelled t s = true).
  { specialize (Hb t Hi). rewrite <- Hm, nth_error_map in Hb. unfold token_cancelled.
    destruct (nth_error (pr_rexecutors s) (ta_token t)) as [x|] eqn:E; [|discriminate]. apply (Hc _ _ E), Hs. }
  rewrite Hx in Hok. unfold task_ok in Hok. destruct t as [tb tk [e w|e sc z data k|sc cfg k]]; cbn [ta_body ta_token] in *.
  - destruct Hok as [wes [H1 [_ H3]]].
    destruct (can_end (xe_codec e) (xe_fns e) show (ex_max_concurrency (xe_consts e)) wes w H1 H3) as [es1 [w1 [R1 L1]]].
    { intros l Hl. eapply Hlim; [reflexivity|exact Hl]. }
    assert (Hex : exists es2 w2, worker_run (xe_codec e) (xe_fns e) show (ex_max_concurrency (xe_consts e)) w es2 = Some w2
                    /\ w_life w2 <> Working /\ forallb not_cancel es2 = true).
    { destruct (w_life w) eqn:El.
      - exists (filter not_cancel es1), w1. split; [apply without_cancel; [apply H3; reflexivity|exact R1]|]. split; [exact L1|].
        apply forallb_forall. intros x Hxin. apply filter_In in Hxin. tauto.
      - exists [], w. split; [reflexivity|]. split; [congruence|reflexivity].
      - exists [], w. split; [reflexivity|]. split; [congruence|reflexivity]. }
    destruct Hex as [es2 [w2 [R2 [L2 C2]]]].
    destruct (lift_worker utc up show i tb tk e es2 w w2 s Hn R2 C2) as [s' [rs' [K1 K2]]].
    exists (map (fun e => (0, AWorker i e)) es2), s', rs'. eexists. split; [exact K1|]. split.
    { apply Forall_forall. intros x Hxin. apply in_map_iff in Hxin. destruct Hxin as [y [<- _]]. left. eexists. reflexivity. }
    split; [exact K2|]. unfold ended, died. cbn [ta_body]. destruct (w_life w2); [congruence|auto|auto].
  - destruct (tick_can_end (up sc z) k) as [tes [k' [R1 P1]]].
    destruct (lift_cron utc up show i tb tk e sc z data tes k k' s Hn Hx R1) as [s' [rs' [K1 K2]]].
    exists (map (fun e => (0, ATick i e)) tes), s', rs'. eexists. split; [exact K1|]. split.
    { apply Forall_forall. intros x Hxin. apply in_map_iff in Hxin. destruct Hxin as [y [<- _]]. right. eexists. reflexivity. }
    split; [exact K2|]. exact P1.
  - destruct (tick_can_end (up sc utc) k) as [tes [k' [R1 P1]]].
    destruct (lift_pruner utc up show i tb tk sc cfg tes k k' s Hn Hx R1) as [s' [rs' [K1 K2]]].
    exists (map (fun e => (0, ATick i e)) tes), s', rs'. eexists. split; [exact K1|]. split.
    { apply Forall_forall. intros x Hxin. apply in_map_iff in Hxin. destruct Hxin as [y [<- _]]. right. eexists. reflexivity. }
    split; [exact K2|]. exact P1.
Qed.
Print Assumptions C79_can_end.

Definition busy_events : list (time * app_event Z Z) :=
  start_events ++ [ (7, AWorker 2 (WTake (MJob (mail_job 1 1 3)))); (8, AWorker 0 (WTake (MJob (mail_job 2 1 3))));
                    (9, ATick 5 (Compute 9 10)); (10, AGuard 1); (11, ADropGuard 1) ].
Example C79_example : exists s rs t2 t5 t0,
  arun process_init busy_events = Some (s, rs)
  /\ nth_error (pr_tasks s) 2 = Some t2 /\ taken_by t2 = [(0%nat, MJob (mail_job 1 1 3))] /\ shut (ta_token t2) busy_events
  /\ nth_error (pr_tasks s) 5 = Some t5 /\ ta_token t5 = 1%nat
  /\ nth_error (pr_tasks s) 0 = Some t0 /\ ta_token t0 = 0%nat /\ ~ shut (ta_token t0) busy_events.
Proof.
  do 5 eexists. split; [reflexivity|]. split; [reflexivity|]. split; [reflexivity|]. split.
  { exists 11, (ADropGuard 1). split; [|right; reflexivity]. cbn. auto 20. }
  split; [reflexivity|]. split; [reflexivity|]. split; [reflexivity|]. split; [reflexivity|].
  intros [n [e [H [->| ->]]]]; cbn in H; repeat (destruct H as [H|H]; [discriminate|]); exact H.
Qed.

(** A task comes to its regular end only after its [Rexecutor] was shut down. *)
Theorem C79_ends_only : forall Schedule Zone (utc : Zone) (upcoming : Schedule -> Zone -> time -> option time) show es s rs t,
  app_run utc upcoming show process_init es = Some (s, rs) -> In t (pr_tasks s) -> ended t -> shut (ta_token t) es.
Proof.
  intros Sc Zn utc up show es s rs t H Hi He.
  pose proof (C78_lives Sc Zn utc up show es s rs t H Hi) as Hl. unfold ended in He.
  assert (T : forall upc tes k k', tick_run upc k tes = Some k' -> tk_phase k <> Stopped -> tk_phase k' = Stopped -> In Cancel tes).
  { intro upc. induction tes as [|e tes IH]; intros k k' Hr H1 H2; cbn [tick_run] in Hr; [congruence|].
    destruct (tick_step upc k e) as [k1|] eqn:E; [|discriminate].
    destruct e; try (left; reflexivity); right; eapply IH; try eassumption;
      unfold tick_step in E; destruct (tk_phase k); try discriminate;
      repeat match type of E with context [match ?x with _ => _ end] => destruct x; try discriminate end;
      injection E as <-; cbn; discriminate. }
  assert (W : forall D M (c : codec D M) fns limit wes w w', worker_run c fns show limit w wes = Some w' ->
     w_cancelled w = false -> (w_life w = Working -> w_open w = true) -> w_life w <> Ended -> w_life w' = Ended -> In WCancel wes).
  { intros D M c fns limit. induction wes as [|e wes IH]; intros w w' Hr H1 H2 H3 H4; cbn [worker_run] in Hr; [congruence|].
    destruct (worker_step c fns show limit w e) as [w1|] eqn:E; [|discriminate].
    destruct e; try (left; reflexivity); right; eapply (IH w1 w'); try eassumption;
      unfold worker_step in E; destruct (w_life w) eqn:El; try discriminate; try specialize (H2 eq_refl); try rewrite H1 in E; try rewrite H2 in E;
      cbn [andb] in E;
      repeat match type of E with context [match ?x with _ => _ end] => destruct x eqn:?; try discriminate end;
      try discriminate E; injection E as <-; cbn; congruence. }
  destruct (ta_body t).
  - destruct Hl as [wes [H1 H2]]. apply H2. eapply W; [exact H1|..]; cbn; congruence.
  - destruct Hl as [n0 [tes [H1 H2]]]. apply H2. eapply T; [exact H1| |exact He]. cbn. discriminate.
  - destruct Hl as [n0 [tes [H1 H2]]]. apply H2. eapply T; [exact H1| |exact He]. cbn. discriminate.
Qed.
Print Assumptions C79_ends_only.
Example C79_ends_sample : exists s rs t,
  arun process_init (busy_events ++ [(12, ATick 5 Cancel)]) = Some (s, rs) /\ nth_error (pr_tasks s) 5 = Some t /\ ended t.
Proof. do 3 eexists. split; [reflexivity|]. split; reflexivity. Qed.

(** * C80 Concurrency in the process *)

(** At most its limit of jobs of an executor are in progress for each time the executor was registered,
    alone or with a cron schedule. *)
Theorem C80_limit_partial : forall Schedule Zone (utc : Zone) (upcoming : Schedule -> Zone -> time -> option time) show es s rs name n,
  app_run utc upcoming show process_init es = Some (s, rs) -> 1 <= n ->
  (forall h e, In (h, RunsJobs e) (flat_map (fun x => asked utc (snd x)) es) -> ex_name (xe_consts e) = name ->
     ex_max_concurrency (xe_consts e) = Some n) ->
  Z.of_nat (all_busy name s) <= n * Z.of_nat (registrations utc name es).
Proof.
  intros Sc Zn utc up show es s rs name n H Hn Hlim.
  destruct (run_inv utc up show es s rs H) as [_ Ht _ _ _ _ Hok].
  unfold all_busy, registrations. rewrite <- Ht in *.
  assert (G : forall l, (forall t, In t l -> In t (pr_tasks s)) ->
    Z.of_nat (list_sum (map (busy name) l))
    <= n * Z.of_nat (length (filter (runs_named name) (map (fun t => (ta_token t, purpose t)) l)))).
  { induction l as [|t l IH]; intro Hin; [cbn; lia|]. specialize (IH (fun x Hx => Hin x (or_intror Hx))).
    assert (Hi : In t (pr_tasks s)) by (apply Hin; left; reflexivity). specialize (Hok t Hi).
    cbn [map list_sum filter]. change (list_sum (busy name t :: map (busy name) l)) with (busy name t + list_sum (map (busy name) l))%nat.
    rewrite Nat2Z.inj_add.
    destruct (runs_named name (ta_token t, purpose t)) eqn:En.
    - cbn [length]. rewrite Nat2Z.inj_succ.
      assert (Z.of_nat (busy name t) <= n); [|lia].
      unfold runs_named, purpose in En. cbn [snd] in En. unfold busy. unfold task_ok in Hok.
      destruct t as [tb tk [e w|e sc z data k|sc cfg k]]; cbn [ta_body] in *; try discriminate. rewrite En.
      destruct Hok as [wes [H1 _]]. apply String.eqb_eq in En.
      assert (Hl : ex_max_concurrency (xe_consts e) = Some n).
      { eapply (Hlim tk); [|exact En]. apply in_map_iff. eexists. split; [|exact Hi]. reflexivity. }
      rewrite Hl in H1. eapply C41_limit; eassumption.
    - assert (busy name t = 0%nat) as ->; [|lia].
      unfold runs_named, purpose in En. cbn [snd] in En. unfold busy.
      destruct t as [tb tk [e w|e sc z data k|sc cfg k]]; cbn [ta_body] in *; try reflexivity. rewrite En. reflexivity. }
  apply G. auto.
Qed.
Print Assumptions C80_limit_partial.

(** One executor with a limit of one and two schedules: two of its jobs are in progress at once. *)
Theorem C80_limit_refuted : exists es s rs,
  arun process_init es = Some (s, rs)
  /\ (forall h e, In (h, RunsJobs e) (flat_map (fun x => asked 0 (snd x)) es) -> e = mail_executor)
  /\ ex_max_concurrency (xe_consts mail_executor) = Some 1 /\ all_busy mail s = 2%nat.
Proof.
  exists [ (1, ANew 0); (2, ACron 0 mail_executor 1000 "a"%string); (3, ACron 0 mail_executor 500 "b"%string);
           (4, AWorker 1 (WTake (MJob (mail_job 1 1 3)))); (5, AWorker 1 (WStart 0));
           (6, AWorker 3 (WTake (MJob (mail_job 2 1 3)))); (7, AWorker 3 (WStart 0)) ].
  do 2 eexists. split; [reflexivity|]. split; [|split; reflexivity].
  intros h e Hin. cbn in Hin. destruct Hin as [K|[K|[K|[K|[]]]]]; try discriminate; injection K; auto.
Qed.
Print Assumptions C80_limit_refuted.
Example C80_example : exists s rs,
  arun process_init busy_events = Some (s, rs) /\ all_busy mail s = 1%nat /\ registrations 0 mail busy_events = 2%nat
  /\ (forall h e, In (h, RunsJobs e) (flat_map (fun x => asked 0 (snd x)) busy_events) -> ex_name (xe_consts e) = mail ->
     ex_max_concurrency (xe_consts e) = Some 1).
Proof.
  do 2 eexists. split; [reflexivity|]. split; [reflexivity|]. split; [reflexivity|].
  intros h e Hin He. cbn in Hin. repeat (destruct Hin as [K|Hin]; [try discriminate K; injection K as _ <-; try reflexivity; discriminate He|]).
  destruct Hin.
Qed.

(** * C81 Every task can be stopped *)

Lemma sets_snoc {Schedule Zone} es now (ev : app_event Schedule Zone) :
  sets (es ++ [(now, ev)]) <-> sets es \/ exists h, ev = ASetGlobal h.
Proof.
  unfold sets. split.
  - intros [n [h H]]. apply in_app_or in H. destruct H as [H|[H|[]]]; [left; eauto|]. injection H as _ ->. eauto.
  - intros [[n [h H]]|[h ->]]; [exists n, h|exists now, h]; apply in_or_app; cbn; auto.
Qed.
Lemma snoc_mid {A} (l1 l2 l : list A) x y : l ++ [y] = l1 ++ x :: l2 ->
  (l2 = [] /\ l1 = l /\ x = y) \/ exists l3, l2 = l3 ++ [y] /\ l = l1 ++ x :: l3.
Proof.
  destruct l2 as [|z l2 _] using rev_ind; intro H.
  - left. apply app_inj_tail in H. destruct H as [-> ->]. auto.
  - right. exists l2. change (x :: l2 ++ [z]) with ((x :: l2) ++ [z]) in H. rewrite app_assoc in H.
    apply app_inj_tail in H. destruct H as [-> ->]. auto.
Qed.
Lemma given_up_snoc {Schedule Zone} h es now (ev : app_event Schedule Zone) :
  given_up h (es ++ [(now, ev)]) <-> given_up h es \/ (ev = ADrop h \/ shuts h ev \/ (ev = ASetGlobal h /\ sets es)).
Proof.
  unfold given_up. split.
  - intros [es1 [n [e [es2 [H K]]]]]. apply snoc_mid in H. destruct H as [[-> [-> E]]|[es3 [-> ->]]].
    + injection E as -> ->. auto.
    + left. exists es1, n, e, es3. auto.
  - intros [[es1 [n [e [es2 [-> K]]]]]|K].
    + exists es1, n, e, (es2 ++ [(now, ev)]). rewrite <- app_assoc. auto.
    + exists es, now, ev, []. auto.
Qed.

(** What the program holds and the state of the global cell, from the history. *)
Lemma run_slots {Schedule Zone} (utc : Zone) (upcoming : Schedule -> Zone -> time -> option time) show :
  forall es s rs, app_run utc upcoming show process_init es = Some (s, rs) ->
  (pr_cell s = None <-> ~ sets es)
  /\ (forall h x, nth_error (pr_rexecutors s) h = Some x ->
        (rx_slot x = Gone <-> given_up h es) /\ (rx_slot x = Owned false -> forall now, ~ In (now, ASetGlobal h) es))
  /\ (forall h, given_up h es \/ (exists now, In (now, ASetGlobal h) es) -> (h < length (pr_rexecutors s))%nat).
Proof.
  intro es. induction es as [|[now ev] es IH] using rev_ind; intros s rs H.
  - cbn in H. injection H as <- _. split; [split; [intros _ [n [h []]]|reflexivity]|]. split; [intros h x K; destruct h; discriminate|].
    intros h [[es1 [n [e [es2 [K _]]]]]|[n []]]. destruct es1; discriminate.
  - destruct (run_app_split utc upcoming show _ _ _ _ _ H) as [s1 [r1 [r2 [H1 [H2 _]]]]]. specialize (IH _ _ H1). destruct IH as [IC [IS IL]].
    cbn [app_run] in H2. destruct (app_step utc upcoming show now s1 ev) as [[s2 r]|] eqn:E; [|discriminate]. injection H2 as <- _.
    assert (In_snoc : forall h n, In (n, ASetGlobal h) (es ++ [(now, ev)]) -> In (n, ASetGlobal h) es \/ ev = ASetGlobal h).
    { intros h n K. apply in_app_or in K. destruct K as [K|[K|[]]]; [auto|]. injection K as _ ->. auto. }
    destruct (step_shape utc upcoming show now s1 ev s2 r E) as [b Hev E1 E2 E3 | k x g new En Es E2 E3 E1 _ Has Hns Hnn Hng | k x En Hsh Hng E2 E1 E3
      | k x sl En [g Hog] E2 E1 Hev | i t t' En E2 E3 E1 Hev].
    + subst ev. assert (Hno : forall h, ~ ((ANew b : app_event Schedule Zone) = ADrop h \/ shuts h (ANew b : app_event Schedule Zone)
        \/ ((ANew b : app_event Schedule Zone) = ASetGlobal h /\ sets es)) /\ (ANew b : app_event Schedule Zone) <> ASetGlobal h).
      { intro h. split; [intros [K|[[K|K]|[K _]]]; discriminate|discriminate]. }
      split; [|split].
      * rewrite E3, IC, sets_snoc. split; [intros K [K'|[h K']]; [auto|discriminate]|auto].
      * intros h y Hy. rewrite given_up_snoc. rewrite E2 in Hy. destruct (Nat.lt_ge_cases h (length (pr_rexecutors s1))) as [Hl|Hl].
        -- rewrite nth_error_app1 in Hy by exact Hl. destruct (IS h y Hy) as [A B]. split.
           ++ rewrite A. split; [auto|]. intros [K|K]; [exact K|destruct (Hno h) as [K' _]; contradiction].
           ++ intros K n Hi. apply In_snoc in Hi. destruct Hi as [Hi|Hi]; [exact (B K n Hi)|discriminate].
        -- rewrite nth_error_app2 in Hy by exact Hl.
           assert (y = mk_rexecutor b false (Owned false)) as ->.
           { destruct (h - length (pr_rexecutors s1))%nat as [|m]; cbn in Hy; [congruence|destruct m; discriminate]. }
           cbn [rx_slot]. split.
           ++ split; [discriminate|]. intros [K|K]; [|destruct (Hno h); contradiction]. specialize (IL h (or_introl K)). lia.
           ++ intros _ n Hi. apply In_snoc in Hi. destruct Hi as [Hi|Hi]; [|discriminate].
              specialize (IL h (or_intror (ex_intro _ n Hi))). lia.
      * intros h K. rewrite E2, app_length. cbn [length].
        assert (K2 : given_up h es \/ (exists n, In (n, ASetGlobal h) es)).
        { destruct K as [K|[n K]].
          - apply given_up_snoc in K. destruct K as [K|K]; [auto|destruct (Hno h); contradiction].
          - apply In_snoc in K. destruct K as [K|K]; [eauto|discriminate]. }
        specialize (IL h K2). lia.
    + assert (Hno : forall h, ~ (ev = ADrop h \/ shuts h ev \/ (ev = ASetGlobal h /\ sets es))).
      { intros h [K|[K|[K _]]]; [|exact (Hns h K)|exact (Hng h K)]. subst ev. cbn [app_step] in E. unfold with_owned in E.
        destruct (owned h s1) as [[y g']|] eqn:Eo; [|discriminate]. injection E as <- _.
        unfold owned in Eo. destruct (nth_error (pr_rexecutors s1) h) as [y'|] eqn:Ey; [|discriminate].
        destruct (rx_slot y') eqn:Esl; try discriminate. injection Eo as <- _. cbn in E2.
        assert (K : nth_error (pr_rexecutors s1) h = Some (mk_rexecutor (rx_backend y') (rx_cancelled y') Gone))
          by (rewrite <- E2 at 1; eapply nth_set_same; exact Ey).
        rewrite Ey in K. injection K as K. rewrite K in Esl. discriminate. }
      split; [|split].
      * rewrite E3, IC, sets_snoc. split; [intros K [K'|[h K']]; [auto|exact (Hng h K')]|auto].
      * intros h y Hy. rewrite given_up_snoc. rewrite E2 in Hy. destruct (IS h y Hy) as [A B]. split.
        -- rewrite A. split; [auto|]. intros [K|K]; [exact K|destruct (Hno h K)].
        -- intros K n Hi. apply In_snoc in Hi. destruct Hi as [Hi|Hi]; [exact (B K n Hi)|exact (Hng h Hi)].
      * intros h K. rewrite E2. apply IL. destruct K as [K|[n K]].
        -- apply given_up_snoc in K. destruct K as [K|K]; [auto|destruct (Hno h K)].
        -- apply In_snoc in K. destruct K as [K|K]; [eauto|destruct (Hng h K)].
    + assert (Hne : forall h, ev <> ASetGlobal h /\ ev <> ADrop h) by (intro h; destruct Hsh as [-> | ->]; split; discriminate).
      assert (Hkl : (k < length (pr_rexecutors s1))%nat) by (eapply nth_lt; exact En).
      split; [|split].
      * rewrite E3, IC, sets_snoc. split; [intros K [K'|[h K']]; [auto|destruct (Hne h); contradiction]|auto].
      * intros h y Hy. rewrite given_up_snoc. rewrite E2 in Hy. destruct (Nat.eq_dec k h) as [->|Hnk].
        -- rewrite (nth_set_same _ _ _ _ En) in Hy. injection Hy as <-. cbn [rx_slot]. split; [tauto|discriminate].
        -- rewrite nth_set_nth_other in Hy by exact Hnk. destruct (IS h y Hy) as [A B]. split.
           ++ rewrite A. split; [auto|]. intros [K|[K|[K|[K _]]]]; [exact K|destruct (Hne h); contradiction| |destruct (Hne h); contradiction].
              destruct Hnk. eapply shuts_eq; eassumption.
           ++ intros K n Hi. apply In_snoc in Hi. destruct Hi as [Hi|Hi]; [exact (B K n Hi)|destruct (Hne h); contradiction].
      * intros h K. rewrite E2, set_nth_length. destruct K as [K|[n K]].
        -- apply given_up_snoc in K. destruct K as [K|[K|[K|[K _]]]]; [auto|destruct (Hne h); contradiction| |destruct (Hne h); contradiction].
           rewrite <- (shuts_eq k h ev Hsh K). exact Hkl.
        -- apply In_snoc in K. destruct K as [K|K]; [eauto|destruct (Hne h); contradiction].
    + assert (Hkl : (k < length (pr_rexecutors s1))%nat) by (eapply nth_lt; exact En).
      assert (Hns : forall h, ~ shuts h ev) by (intros h [K|K]; destruct Hev as [[-> _]|[_ [[-> _]|[-> _]]]]; discriminate).
      assert (Hk : forall h, ev = ASetGlobal h \/ ev = ADrop h -> h = k)
        by (intros h [K|K]; destruct Hev as [[-> _]|[_ [[-> _]|[-> _]]]]; congruence).
      split; [|split].
      * rewrite sets_snoc. destruct Hev as [[-> [[Hc [-> _]]|[Hc [-> _]]]]|[-> Hev]].
        -- split; [discriminate|]. intro K. destruct K. right. eauto.
        -- split; [contradiction|]. intro K. destruct K. right. eauto.
        -- rewrite IC. split; [|auto]. intros K [K'|[h K']]; [auto|]. destruct Hev as [[-> _]|[-> _]]; discriminate.
      * intros h y Hy. rewrite given_up_snoc. rewrite E2 in Hy. destruct (Nat.eq_dec k h) as [->|Hnk].
        -- rewrite (nth_set_same _ _ _ _ En) in Hy. injection Hy as <-. cbn [rx_slot].
           destruct (IS h x En) as [A B]. rewrite Hog in A.
           assert (Hngu : ~ given_up h es) by (intro K; apply A in K; discriminate).
           destruct Hev as [[-> [[Hc [_ ->]]|[Hc [_ ->]]]]|[_ [[-> ->]|[-> ->]]]].
           ++ split; [|discriminate]. split; [discriminate|]. intros [K|[K|[K|[_ K]]]]; [contradiction|discriminate|destruct (Hns h K)|].
              apply IC in Hc. contradiction.
           ++ split; [|discriminate]. split; [intros _|reflexivity]. right. right. right. split; [reflexivity|].
              (* the cell is set, so someone has set it *)
              assert (D : sets es \/ ~ sets es).
              { clear. unfold sets. induction es as [|[n e] l IHl]; [right; intros [n [h []]]|].
                destruct IHl as [[n' [h' K]]|K]; [left; exists n', h'; right; exact K|].
                destruct e; try (right; intros [n' [h' [K'|K']]]; [discriminate|apply K; eauto]). left. exists n, h. left. reflexivity. }
              destruct D as [D|D]; [exact D|]. apply IC in D. contradiction.
           ++ split; [|discriminate]. split; [discriminate|]. intros [K|[K|[K|[K _]]]]; [contradiction|discriminate|destruct (Hns h K)|discriminate].
           ++ split; [|discriminate]. split; [auto|reflexivity].
        -- rewrite nth_set_nth_other in Hy by exact Hnk. destruct (IS h y Hy) as [A B]. split.
           ++ rewrite A. split; [auto|]. intros [K|[K|[K|[K _]]]]; [exact K|destruct Hnk; symmetry; apply Hk; auto|destruct (Hns h K)|destruct Hnk; symmetry; apply Hk; auto].
           ++ intros K n Hi. apply In_snoc in Hi. destruct Hi as [Hi|Hi]; [exact (B K n Hi)|]. destruct Hnk. symmetry. apply Hk. auto.
      * intros h K. rewrite E2, set_nth_length. destruct K as [K|[n K]].
        -- apply given_up_snoc in K. destruct K as [K|[K|[K|[K _]]]]; [auto|rewrite (Hk h); auto|destruct (Hns h K)|rewrite (Hk h); auto].
        -- apply In_snoc in K. destruct K as [K|K]; [eauto|rewrite (Hk h); auto].
    + assert (Hno : forall h, ev <> ADrop h /\ ~ shuts h ev /\ ev <> ASetGlobal h).
      { intro h. destruct Hev as [[e [-> _]]|[e [-> _]]]; (split; [discriminate|]; split; [intros [K|K]; discriminate|discriminate]). }
      split; [|split].
      * rewrite E3, IC, sets_snoc. split; [intros K [K'|[h K']]; [auto|destruct (Hno h) as [_ [_ Q]]; contradiction]|auto].
      * intros h y Hy. rewrite given_up_snoc. rewrite E2 in Hy. destruct (IS h y Hy) as [A B]. destruct (Hno h) as [Q1 [Q2 Q3]]. split.
        -- rewrite A. split; [auto|]. intros [K|[K|[K|[K _]]]]; [exact K|contradiction..].
        -- intros K n Hi. apply In_snoc in Hi. destruct Hi as [Hi|Hi]; [exact (B K n Hi)|contradiction].
      * intros h K. rewrite E2. apply IL. destruct (Hno h) as [Q1 [Q2 Q3]]. destruct K as [K|[n K]].
        -- apply given_up_snoc in K. destruct K as [K|[K|[K|[K _]]]]; [auto|contradiction..].
        -- apply In_snoc in K. destruct K as [K|K]; [eauto|contradiction].
Qed.

(** The tasks of a [Rexecutor] can be told to stop, now or later, exactly as long as the program has
    not given it up. *)
Theorem C81_stoppable_exactly : forall Schedule Zone (utc : Zone) (upcoming : Schedule -> Zone -> time -> option time) show es s rs h,
  app_run utc upcoming show process_init es = Some (s, rs) -> (h < length (made es))%nat ->
  ((exists es' s' rs', app_run utc upcoming show s es' = Some (s', rs') /\ shut h es') <-> ~ given_up h es).
Proof.
  intros Sc Zn utc up show es s rs h H Hh.
  destruct (C78_tasks Sc Zn utc up show es s rs H) as [_ [_ Hlen]]. rewrite Hlen in Hh.
  destruct (nth_error (pr_rexecutors s) h) as [x|] eqn:En; [|apply nth_error_None in En; lia].
  destruct (run_slots utc up show es s rs H) as [_ [IS _]]. destruct (IS h x En) as [A _].
  split.
  - intros [es' [s' [rs' [H' [n [ev [Hin Hs]]]]]]] Hg. apply A in Hg.
    apply in_split in Hin. destruct Hin as [l1 [l2 ->]].
    destruct (run_app_split utc up show _ _ _ _ _ H') as [s1 [r1 [r2 [H1 [H2 _]]]]].
    pose proof (gone_run utc up show _ _ _ _ _ _ H1 En Hg) as En1. cbn [app_run] in H2.
    destruct Hs as [-> | ->]; cbn [app_step] in H2; unfold with_owned, owned in H2; rewrite En1, Hg in H2; discriminate.
  - intro Hg. destruct (rx_slot x) as [g| |] eqn:Es.
    + exists [(0, AShutdown h)]. cbn [app_run app_step]. unfold with_owned, owned. rewrite En, Es. do 2 eexists. split; [reflexivity|].
      exists 0, (AShutdown h). split; [left; reflexivity|left; reflexivity].
    + exists [(0, ADropGuard h)]. cbn [app_run app_step]. rewrite En, Es. do 2 eexists. split; [reflexivity|].
      exists 0, (ADropGuard h). split; [left; reflexivity|right; reflexivity].
    + destruct Hg. apply A. reflexivity.
Qed.
Print Assumptions C81_stoppable_exactly.

(** Two [Rexecutor]s that both want to be the global one: the second is lost in the attempt, its
    worker runs and can never be told to stop. *)
Theorem C81_stoppable_refuted : exists es s rs t w,
  arun process_init es = Some (s, rs) /\ nth_error (pr_tasks s) 0 = Some t /\ ta_body t = BWorker mail_executor w
  /\ w_life w = Working /\ nth_error rs 4 = Some (RErr GlobalBackendError)
  /\ (forall h now, ~ In (now, ADrop h) es) /\ (forall h, ~ shut h es)
  /\ forall es' s' rs', arun s es' = Some (s', rs') ->
       ~ shut (ta_token t) es' /\ (forall t', nth_error (pr_tasks s') 0 = Some t' -> ~ ended t').
Proof.
  set (es := [ (1, ANew 0); (2, ASetGlobal 0); (3, ANew 1); (4, AExecutor 1 mail_executor); (5, ASetGlobal 1) ] : list (time * app_event Z Z)).
  exists es. do 4 eexists. split; [reflexivity|]. split; [reflexivity|]. split; [reflexivity|]. split; [reflexivity|]. split; [reflexivity|].
  assert (Hno : forall h, ~ shut h es).
  { intros h [n [e [K [->| ->]]]]; cbn in K; repeat (destruct K as [K|K]; [discriminate|]); exact K. }
  split; [intros h n K; cbn in K; repeat (destruct K as [K|K]; [discriminate|]); exact K|].
  split; [exact Hno|]. cbn [ta_token].
  intros es' s' rs' H.
  match type of H with app_run _ _ _ ?x _ = _ => set (s := x) in * end.
  assert (H0 : arun process_init es = Some (s, [ROk tt; ROk tt; ROk tt; ROk tt; RErr GlobalBackendError])) by reflexivity.
  assert (Hns : ~ shut 1 es').
  { intro K. assert (Hg : given_up 1 es).
    { exists [ (1, ANew 0); (2, ASetGlobal 0); (3, ANew 1); (4, AExecutor 1 mail_executor) ], 5, (ASetGlobal 1), [].
      split; [reflexivity|]. right. right. split; [reflexivity|]. exists 2, 0%nat. cbn. auto. }
    eapply (C81_stoppable_exactly Z Z 0 every shown es s _ 1 H0 ltac:(cbn; lia)); [|exact Hg]. eauto. }
  split; [exact Hns|]. intros t' Hn He.
  pose proof (run_join 0 every shown _ _ _ _ _ _ _ H0 H) as Hj.
  assert (Htk : ta_token t' = 1%nat).
  { destruct (C78_tasks Z Z 0 every shown _ _ _ Hj) as [Ht _].
    assert (K : nth_error (map (fun t => (ta_token t, purpose t)) (pr_tasks s')) 0 = Some (1%nat, RunsJobs mail_executor))
      by (rewrite Ht; reflexivity).
    rewrite nth_error_map, Hn in K. cbn in K. congruence. }
  pose proof (C79_ends_only Z Z 0 every shown _ _ _ t' Hj (nth_error_In _ _ Hn) He) as Hs. rewrite Htk in Hs.
  destruct Hs as [n [e [Hi Hsh]]]. apply in_app_or in Hi. destruct Hi as [Hi|Hi].
  - apply (Hno 1%nat). exists n, e. auto.
  - apply Hns. exists n, e. auto.
Qed.
Print Assumptions C81_stoppable_refuted.
Example C81_example : exists s rs,
  arun process_init start_events = Some (s, rs) /\ (1 < length (made start_events))%nat /\ ~ given_up 1 start_events.
Proof.
  do 2 eexists. split; [reflexivity|]. split; [cbn; lia|].
  intros [es1 [n [e [es2 [E K]]]]].
  assert (Hi : In (n, e) start_events) by (rewrite E; apply in_or_app; right; left; reflexivity).
  destruct K as [->|[[->| ->]|[-> _]]]; cbn in Hi; repeat (destruct Hi as [Hi|Hi]; [discriminate|]); exact Hi.
Qed.

(** * C82 Becoming the global backend *)

(** The first attempt of the process succeeds and decides for good; every later one is refused. *)
Theorem C82_first_only : forall Schedule Zone (utc : Zone) (upcoming : Schedule -> Zone -> time -> option time) show es1 now h es2 s rs,
  app_run utc upcoming show process_init (es1 ++ (now, ASetGlobal h) :: es2) = Some (s, rs) ->
  (~ sets es1 -> nth_error rs (length es1) = Some (ROk tt) /\ pr_cell s = nth_error (made es1) h /\ pr_cell s <> None)
  /\ (sets es1 -> nth_error rs (length es1) = Some (RErr GlobalBackendError)).
Proof.
  intros Sc Zn utc up show es1 now h es2 s rs H.
  destruct (run_app_split utc up show _ _ _ _ _ H) as [s1 [r1 [r2 [H1 [H2 [-> Hl]]]]]].
  destruct (run_slots utc up show es1 s1 r1 H1) as [IC _]. destruct (run_inv utc up show es1 s1 r1 H1) as [Hm _ _ _ _ _ _].
  cbn [app_run app_step] in H2. unfold owned in H2. destruct (nth_error (pr_rexecutors s1) h) as [x|] eqn:En; [|discriminate].
  destruct (rx_slot x) as [[|]| |]; try discriminate.
  destruct (app_set_global h x s1) as [s2 r] eqn:Eg. destruct (app_run utc up show s2 es2) as [[s3 rs3]|] eqn:E3; [|discriminate].
  injection H2 as <- <-. rewrite nth_error_app2, Hl, Nat.sub_diag by lia. cbn [nth_error].
  assert (Keep : forall es s s' rs b, app_run utc up show s es = Some (s', rs) -> pr_cell s = Some b -> pr_cell s' = Some b).
  { clear. induction es as [|[n ev] es IH]; intros s s' rs b Hr Hc; cbn [app_run] in Hr; [injection Hr as <- _; exact Hc|].
    destruct (app_step utc up show n s ev) as [[s1 r]|] eqn:E; [|discriminate].
    destruct (app_run utc up show s1 es) as [[s2 rs2]|] eqn:E2; [|discriminate]. injection Hr as <- _.
    eapply IH; [exact E2|]. destruct (step_shape utc up show _ _ _ _ _ E) as [? ? ? ? E3|? ? ? ? ? ? ? E3|? ? ? ? ? ? ? E3|? ? ? ? ? ? ? Hev|? ? ? ? ? E3];
      try (rewrite E3; exact Hc). destruct Hev as [[_ [[K _]|[_ [K _]]]]|[K _]]; congruence. }
  unfold app_set_global, g_set in Eg. cbn [g_cell] in Eg. split; intro Hs.
  - apply IC in Hs. rewrite Hs in Eg. injection Eg as <- <-. split; [reflexivity|].
    assert (K : pr_cell s3 = Some (rx_backend x)) by (eapply Keep; [exact E3|reflexivity]).
    rewrite K, <- Hm, nth_error_map, En. split; [reflexivity|discriminate].
  - destruct (pr_cell s1) as [b|] eqn:Ec.
    + injection Eg as _ <-. reflexivity.
    + assert (K : ~ sets es1) by (apply IC; reflexivity). contradiction.
Qed.
Print Assumptions C82_first_only.

(** Before that there is none; and no [Rexecutor] tries twice. *)
Theorem C82_unset : forall Schedule Zone (utc : Zone) (upcoming : Schedule -> Zone -> time -> option time) show es s rs,
  app_run utc upcoming show process_init es = Some (s, rs) -> (pr_cell s = None <-> ~ sets es).
Proof. intros Sc Zn utc up show es s rs H. apply (run_slots utc up show es s rs H). Qed.
Print Assumptions C82_unset.
Theorem C82_not_twice : forall Schedule Zone (utc : Zone) (upcoming : Schedule -> Zone -> time -> option time) show es1 n1 es2 n2 h es3,
  app_run utc upcoming show process_init (es1 ++ (n1, ASetGlobal h) :: es2 ++ (n2, ASetGlobal h) :: es3) = None.
Proof.
  intros Sc Zn utc up show es1 n1 es2 n2 h es3.
  change (es1 ++ (n1, ASetGlobal h) :: es2 ++ (n2, ASetGlobal h) :: es3)
    with (es1 ++ ((n1, ASetGlobal h) :: es2) ++ (n2, ASetGlobal h) :: es3). rewrite app_assoc.
  destruct (app_run utc up show process_init _) as [[s rs]|] eqn:E; [exfalso|reflexivity].
  destruct (run_app_split utc up show _ _ _ _ _ E) as [s1 [r1 [r2 [H1 [H2 _]]]]].
  destruct (run_slots utc up show _ s1 r1 H1) as [_ [IS _]].
  cbn [app_run app_step] in H2. unfold owned in H2. destruct (nth_error (pr_rexecutors s1) h) as [x|] eqn:En; [|discriminate].
  destruct (IS h x En) as [_ B]. destruct (rx_slot x) as [[|]| |]; try discriminate.
  apply (B eq_refl n1). apply in_or_app. right. left. reflexivity.
Qed.
Print Assumptions C82_not_twice.
Example C82_example : exists s rs,
  arun process_init [ (1, ANew 5); (2, ANew 6); (3, ASetGlobal 1); (4, ASetGlobal 0) ] = Some (s, rs)
  /\ pr_cell s = Some 6%nat /\ rs = [ROk tt; ROk tt; ROk tt; RErr GlobalBackendError].
Proof. do 2 eexists. split; [reflexivity|]. split; reflexivity. Qed.

(** * C83 No tick after a shutdown *)

(** A loop that is told to stop while it sleeps begins an action afterwards only if nobody gave it the
    chance to notice before its sleep was over. *)
Theorem C83_no_tick_partial : forall Schedule Zone (utc : Zone) (upcoming : Schedule -> Zone -> time -> option time) show s es s' rs i t t' n u c a,
  app_run utc upcoming show s es = Some (s', rs) -> nth_error (pr_tasks s) i = Some t -> nth_error (pr_tasks s') i = Some t' ->
  match ta_body t with BWorker _ _ => False | BCron _ _ _ _ k | BPruner _ _ k => tk_phase k = Sleeping n u end ->
  In (c, a) (begun_by t') -> In (c, a) (begun_by t) \/ u <= c.
Proof.
  intros Sc Zn utc up show s es s' rs i t t' n u c a Hr Hn Hn' Hp.
  (* the loop either still sleeps with nothing new begun, or its clock has passed [u], or it has stopped *)
  set (old := begun_by t).
  set (good := fun k : ticker =>
    (forall x, In x (tk_fired k) -> In x old \/ u <= fst x)
    /\ ((exists m, tk_phase k = Sleeping m u) \/ u <= tk_clock k \/ tk_phase k = Stopped)).
  set (P := fun t : task Sc Zn => match ta_body t with BWorker _ _ => False | BCron _ _ _ _ k | BPruner _ _ k => good k end).
  assert (G : forall upc k e k', good k -> tick_step upc k e = Some k' -> good k').
  { intros upc k e k' [F C] E. unfold tick_step in E. destruct (tk_phase k) as [|m u'|m|u'| |] eqn:Ep; destruct e; try discriminate.
    - destruct C as [[m C]|[C|C]]; try discriminate. destruct ((tk_clock k <=? c0) && (c0 <=? c1)) eqn:Eb; [|discriminate].
      apply andb_true_iff in Eb. rewrite !Z.leb_le in Eb. unfold time in *. destruct (upc c0); injection E as <-; split; cbn; auto; right; left; lia.
    - destruct ((tk_clock k <=? c0) && (u' <=? c0)) eqn:Eb; [|discriminate]. apply andb_true_iff in Eb. rewrite !Z.leb_le in Eb.
      injection E as <-. assert (u <= c0) by (unfold time in *; destruct C as [[m' C]|[C|C]]; [injection C as _ C; subst; lia|lia|discriminate]).
      split; cbn; [|auto]. intros x [<-|Hx]; [right; assumption|auto].
    - injection E as <-. split; cbn; auto.
    - destruct C as [[m' C]|[C|C]]; try discriminate. destruct (tk_clock k <=? c0) eqn:Eb; [|discriminate]. rewrite Z.leb_le in Eb.
      unfold time in *. destruct panicked; [|destruct (0 <? _)]; injection E as <-; (split; cbn; [auto|right; left; lia]).
    - destruct C as [[m' C]|[C|C]]; try discriminate. destruct ((tk_clock k <=? c0) && (u' <=? c0)) eqn:Eb; [|discriminate].
      apply andb_true_iff in Eb. rewrite !Z.leb_le in Eb. unfold time in *. injection E as <-; (split; cbn; [auto|right; left; lia]). }
  assert (HP : P t).
  { unfold P, good, old, begun_by. destruct (ta_body t); [destruct Hp|..]; (split; [auto|left; eauto]). }
  assert (S : forall now s ev s' r t, app_step utc up show now s ev = Some (s', r) -> nth_error (pr_tasks s) i = Some t -> P t ->
            exists t', nth_error (pr_tasks s') i = Some t' /\ P t').
  { clearbody old. clear Hr Hn Hn' Hp HP t t' s s' rs. subst P. cbn beta.
    intros now s ev s' r t Hst Hn HP. destruct (step_task utc up show _ _ _ _ _ _ _ Hst Hn) as [t' [H1 H2]].
    exists t'. split; [exact H1|]. destruct H2 as [->|[[_ ->]|[[e [_ H]]|[e [_ H]]]]].
    - exact HP.
    - unfold told. rewrite Nat.eqb_refl. destruct t as [tb tk [x w|x sc z data k|sc cfg k]]; cbn [ta_body] in *; [destruct HP|exact HP|exact HP].
    - unfold worker_task_step in H. destruct (ta_body t); [destruct HP|..]; destruct e; discriminate.
    - unfold tick_task_step in H. destruct t as [tb tk [x w|x sc z data k|sc cfg k]]; cbn [ta_body ta_token ta_backend] in *; [destruct HP|..].
      + destruct (tick_step (up sc z) k e) as [k'|] eqn:E; [|destruct e; try destruct (token_cancelled _ _); discriminate].
        assert (t' = mk_task tb tk (BCron x sc z data k')) as -> by (destruct e; try destruct (token_cancelled _ _); try discriminate; congruence).
        cbn [ta_body]. eapply G; eassumption.
      + destruct (tick_step (up sc utc) k e) as [k'|] eqn:E; [|destruct e; try destruct (token_cancelled _ _); discriminate].
        assert (t' = mk_task tb tk (BPruner sc cfg k')) as -> by (destruct e; try destruct (token_cancelled _ _); try discriminate; congruence).
        cbn [ta_body]. eapply G; eassumption. }
  assert (R : forall es s s' rs t, app_run utc up show s es = Some (s', rs) -> nth_error (pr_tasks s) i = Some t -> P t ->
            exists t', nth_error (pr_tasks s') i = Some t' /\ P t').
  { induction es0 as [|[now ev] es0 IH]; intros q q' qs y Hq Hy HPy; cbn [app_run] in Hq; [injection Hq as <- _; eauto|].
    destruct (app_step utc up show now q ev) as [[q1 r]|] eqn:E; [|discriminate].
    destruct (app_run utc up show q1 es0) as [[q2 rs2]|] eqn:E2; [|discriminate]. injection Hq as <- _.
    destruct (S _ _ _ _ _ _ E Hy HPy) as [y1 [K1 K2]]. eapply IH; eassumption. }
  destruct (R es s s' rs t Hr Hn HP) as [t1 [K1 K2]]. assert (t1 = t') as -> by congruence.
  intro Hin. subst P. cbn beta in K2. unfold begun_by in Hin. destruct (ta_body t'); [destruct Hin|..]; destruct K2 as [F _]; apply (F (c, a) Hin).
Qed.
Print Assumptions C83_no_tick_partial.

(** The select picks one of its ready branches at random: a loop told to stop, but only polled after
    its sleep is over, may act once more. *)
Theorem C83_no_tick_refuted : exists es s rs s' rs' t t',
  arun process_init es = Some (s, rs) /\ nth_error (pr_tasks s) 0 = Some t /\ shut (ta_token t) es /\ begun_by t = []
  /\ purpose t = FiresCron mail_executor (1000 * ms) 0 "a"%string
  /\ arun s [(1001 * ms, ATick 0 (Wake (1001 * ms)))] = Some (s', rs') /\ nth_error (pr_tasks s') 0 = Some t'
  /\ begun_by t' = [(1001 * ms, 1000 * ms)].
Proof.
  exists [ (1, ANew 0); (2, ACron 0 mail_executor (1000 * ms) "a"%string); (3, ATick 0 (Compute 3 4)); (5, AShutdown 0) ].
  do 6 eexists. split; [vm_compute; reflexivity|]. split; [reflexivity|]. split.
  { exists 5, (AShutdown 0). split; [cbn; auto|left; reflexivity]. }
  split; [reflexivity|]. split; [reflexivity|]. split; [vm_compute; reflexivity|]. split; reflexivity.
Qed.
Print Assumptions C83_no_tick_refuted.
Example C83_example : exists s rs t k s' rs' t',
  arun process_init [ (1, ANew 0); (2, ACron 0 mail_executor (1000 * ms) "a"%string); (3, ATick 0 (Compute 3 4)); (5, AShutdown 0) ] = Some (s, rs)
  /\ nth_error (pr_tasks s) 0 = Some t /\ ta_body t = BCron mail_executor (1000 * ms) 0 "a"%string k /\ tk_phase k = Sleeping (1000 * ms) (990 * ms)
  /\ arun s [(6, ATick 0 Cancel)] = Some (s', rs') /\ nth_error (pr_tasks s') 0 = Some t' /\ ended t'.
Proof. do 7 eexists. split; [vm_compute; reflexivity|]. split; [reflexivity|]. split; [reflexivity|]. split; [reflexivity|]. split; [vm_compute; reflexivity|]. split; reflexivity. Qed.
