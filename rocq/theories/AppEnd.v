(** Lemmas about what tasks do after they have been told to stop. *)
From Coq Require Import Lia.
From Verif Require Import Base Chrono Types Query Memory MemSpec Codec Builder GlobalBackend Runner RunnerSpec WorkerProofs
  Ticker SchedSpec SchedProofs Pruner ApiProofs App AppSpec AppProofs PropsRunner.

(** * Workers *)

Section Worker.
  Context {D M : Type}.
  Variable c : codec D M.
  Variable fns : executor_fns D M.
  Variable show : Z -> string.
  Variable limit : option Z.
  Notation step := (worker_step c fns show limit).
  Notation run := (worker_run c fns show limit).

  Lemma bad_or_good : forall l : list (nat * flight_phase),
    (forall n j, In (n, FNew (MJob j)) l -> runnable c fns j \/ undecodable c j)
    \/ (exists n j, In (n, FNew (MJob j)) l /\ begin_job c fns j = Died).
  Proof.
    induction l as [|[n ph] l IH]; [left; intros n j []|].
    destruct IH as [IH|[n' [j' [H1 H2]]]]; [|right; exists n', j'; cbn; auto].
    destruct ph as [[j|e]|x|o];
      try (left; intros n' j' [H|H]; [discriminate|eauto]).
    assert (H : (runnable c fns j \/ undecodable c j) \/ begin_job c fns j = Died).
    { unfold begin_job, runnable, undecodable. destruct (typed_of_stored c j) as [t|e|]; [|eauto|auto].
      destruct (xf_timeout fns t) as [to|] eqn:E1; [|auto].
      destruct (xf_backoff fns t) as [d|] eqn:E2; [|auto]. left. left. exists t, to, d. auto. }
    destruct H as [H|H].
    - left. intros n' j' [K|K]; [|eauto]. injection K as <- <-. exact H.
    - right. exists n, j. cbn. auto.
  Qed.

  Lemma flight_in n ph : forall l, NoDup (map fst l) -> In (n, ph) l -> flight_of n l = Some ph.
  Proof.
    induction l as [|[k q] l IH]; intros Hd Hi; [destruct Hi|]. cbn in *. inversion Hd as [|? ? Hn Hd']; subst.
    destruct (Nat.eqb_spec k n) as [->|Hne].
    - destruct Hi as [Hi|Hi]; [congruence|]. destruct Hn. apply in_map_iff. exists (n, ph). auto.
    - destruct Hi as [Hi|Hi]; [congruence|auto].
  Qed.

  (** A worker that has been told to stop gets to its end without being told again. *)
  Lemma can_end wes w :
    run worker_start wes = Some w -> (w_life w = Working -> w_cancelled w = true) ->
    (forall l, limit = Some l -> 0 <= l) ->
    exists es w', run w es = Some w' /\ w_life w' <> Working.
  Proof.
    intros Hr Hc Hl. destruct (w_life w) eqn:El; [|exists [], w; split; [reflexivity|congruence]..].
    pose proof (run_winv c fns show limit wes w Hr) as Hw.
    destruct (bad_or_good (w_flights w)) as [Hg|[n [j [Hi Hd]]]].
    - destruct (C42_can_stop D M c fns show limit wes w Hr El (Hc eq_refl) Hl Hg) as [es [w' [H1 H2]]].
      exists es, w'. split; [exact H1|congruence].
    - exists [WStart n], (crash w). split; [|cbn; discriminate]. cbn [worker_run]. unfold worker_step. rewrite El.
      destruct Hw as [Hnd _]. rewrite (flight_in n _ _ Hnd Hi), Hd. reflexivity.
  Qed.

  Definition not_cancel (e : worker_event) : bool := match e with WCancel => false | _ => true end.
  Lemma cancel_again w w' : w_cancelled w = true -> step w WCancel = Some w' -> w' = w.
  Proof. unfold worker_step. destruct w as [fl nx ca op tr [| |] sn]; cbn; intros; congruence. Qed.
  Lemma without_cancel : forall es w w', w_cancelled w = true -> run w es = Some w' ->
    run w (filter not_cancel es) = Some w'.
  Proof.
    induction es as [|e es IH]; intros w w' Hc H; [exact H|].
    cbn [worker_run] in H. destruct (step w e) as [w1|] eqn:E; [|discriminate].
    assert (Hc1 : w_cancelled w1 = true) by (eapply (cancelled_step c fns show limit); eassumption).
    destruct (not_cancel e) eqn:En; cbn [filter]; rewrite En.
    - cbn [worker_run]. rewrite E. auto.
    - assert (e = WCancel) as -> by (destruct e; try discriminate; reflexivity).
      rewrite <- (cancel_again w w1 Hc E). auto.
  Qed.
End Worker.

(** * Loops *)

Lemma tick_can_end up k :
  exists es k', tick_run up k es = Some k' /\ (tk_phase k' = Stopped \/ tk_phase k' = Crashed).
Proof.
  assert (S1 : forall c f n u, exists es k', tick_run up (mk_ticker (Sleeping n u) c f) es = Some k' /\ (tk_phase k' = Stopped \/ tk_phase k' = Crashed)).
  { intros c f n u. exists [Cancel]. eexists. split; [reflexivity|]. auto. }
  assert (S2 : forall c f, exists es k', tick_run up (mk_ticker Computing c f) es = Some k' /\ (tk_phase k' = Stopped \/ tk_phase k' = Crashed)).
  { intros c f. destruct (up c) as [n|] eqn:E.
    - destruct (S1 c f n (c + tick_delay n c)) as [es [k' [H1 H2]]]. exists (Compute c c :: es), k'. split; [|exact H2].
      cbn [tick_run]. unfold tick_step. cbn [tk_phase tk_clock tk_fired]. rewrite Z.leb_refl, E. exact H1.
    - exists [Compute c c]. eexists. cbn [tick_run]. unfold tick_step. cbn [tk_phase tk_clock tk_fired]. rewrite Z.leb_refl, E. cbn [andb].
      split; [reflexivity|]. auto. }
  assert (S3 : forall u c f, exists es k', tick_run up (mk_ticker (Resting u) c f) es = Some k' /\ (tk_phase k' = Stopped \/ tk_phase k' = Crashed)).
  { intros u c f. destruct (S2 (Z.max c u) f) as [es [k' [H1 H2]]]. exists (Rested (Z.max c u) :: es), k'. split; [|exact H2].
    cbn [tick_run]. unfold tick_step. cbn [tk_phase tk_clock tk_fired].
    replace (c <=? Z.max c u) with true by (symmetry; apply Z.leb_le; lia).
    replace (u <=? Z.max c u) with true by (symmetry; apply Z.leb_le; lia). exact H1. }
  destruct k as [[|n u|n|u| |] c f]; auto.
  - destruct (0 <? dt_diff n c) eqn:E.
    + destruct (S3 (c + dt_diff n c) c f) as [es [k' [H1 H2]]]. exists (Acted c false :: es), k'. split; [|exact H2].
      cbn [tick_run]. unfold tick_step. cbn [tk_phase tk_clock tk_fired]. rewrite Z.leb_refl, E. exact H1.
    + destruct (S2 c f) as [es [k' [H1 H2]]]. exists (Acted c false :: es), k'. split; [|exact H2].
      cbn [tick_run]. unfold tick_step. cbn [tk_phase tk_clock tk_fired]. rewrite Z.leb_refl, E. exact H1.
  - exists []. eexists. split; [reflexivity|]. auto.
  - exists []. eexists. split; [reflexivity|]. auto.
Qed.

(** * In the process *)

Section Process.
  Context {Schedule Zone : Type}.
  Variable utc : Zone.
  Variable upcoming : Schedule -> Zone -> time -> option time.
  Variable show : Z -> string.
  Notation pstep := (app_step utc upcoming show).
  Notation prun := (app_run utc upcoming show).
  Notation tsk := (task Schedule Zone).
  Notation wrun e := (worker_run (xe_codec e) (xe_fns e) show (ex_max_concurrency (xe_consts e))).
  Notation wstep e := (worker_step (xe_codec e) (xe_fns e) show (ex_max_concurrency (xe_consts e))).

  (** What can become of task [i] in one step. *)
  Lemma step_task now s ev s' r i t :
    pstep now s ev = Some (s', r) -> nth_error (pr_tasks s) i = Some t ->
    exists t', nth_error (pr_tasks s') i = Some t'
      /\ (t' = t \/ (shuts (ta_token t) ev /\ t' = told show (ta_token t) t)
          \/ (exists e, ev = AWorker i e /\ worker_task_step show t e = Some t')
          \/ (exists e, ev = ATick i e /\ tick_task_step utc upcoming (token_cancelled t s) t e = Some t')).
  Proof.
    intros Hst Hn. apply step_shape in Hst.
    destruct Hst as [b -> E1 E2 E3 | h x g new En Es E2 E3 E1 _ _ _ _ _ | h x En Hsh Hng E2 E1 E3
                    | h x sl En [g Hog] E2 E1 Hev | k t0 t' En E2 E3 E1 Hev].
    - exists t. rewrite E1. auto.
    - exists t. rewrite E1. split; [|auto]. rewrite nth_error_app1; [exact Hn|eapply nth_lt; exact Hn].
    - exists (told show h t). rewrite E1, nth_error_map, Hn. split; [reflexivity|].
      destruct (Nat.eq_dec (ta_token t) h) as [<-|Hne]; [auto|left; apply told_other, Hne].
    - exists t. rewrite E1. auto.
    - destruct (Nat.eq_dec k i) as [->|Hne].
      + assert (t0 = t) as -> by congruence. exists t'. rewrite E1, (nth_set_same _ _ _ _ En). split; [reflexivity|].
        right. right. destruct Hev as [H|H]; [left|right]; exact H.
      + exists t. rewrite E1, nth_set_nth_other by congruence. auto.
  Qed.

  Lemma step_keeps now s ev s' r i t t' :
    pstep now s ev = Some (s', r) -> nth_error (pr_tasks s) i = Some t -> nth_error (pr_tasks s') i = Some t' ->
    ta_token t' = ta_token t /\ ta_backend t' = ta_backend t /\ purpose t' = purpose t.
  Proof.
    intros Hst Hn Hn'. destruct (step_task _ _ _ _ _ _ _ Hst Hn) as [t1 [H1 H2]].
    assert (t1 = t') as -> by congruence. destruct H2 as [->|[[_ ->]|[[e [_ H]]|[e [_ H]]]]].
    - auto.
    - destruct (told_same show (ta_token t) t) as [A [B C]]. auto.
    - unfold worker_task_step in H. destruct t as [tb tk [x w|x sc z data k|sc cfg k]]; cbn [ta_body ta_token ta_backend] in H; [|destruct e; discriminate..].
      destruct (wstep x w e); [|destruct e; discriminate].
      assert (E : t' = mk_task tb tk (BWorker x w0)) by (destruct e; congruence). subst. auto.
    - unfold tick_task_step in H. destruct t as [tb tk [x w|x sc z data k|sc cfg k]]; cbn [ta_body ta_token ta_backend] in H;
        [destruct e; try destruct (token_cancelled _ _); discriminate|..].
      + destruct (tick_step (upcoming sc z) k e) as [k'|]; [|destruct e; try destruct (token_cancelled _ _); discriminate].
        assert (E : t' = mk_task tb tk (BCron x sc z data k')) by (destruct e; try destruct (token_cancelled _ _); try discriminate; cbn in *; congruence).
        subst. auto.
      + destruct (tick_step (upcoming sc utc) k e) as [k'|]; [|destruct e; try destruct (token_cancelled _ _); discriminate].
        assert (E : t' = mk_task tb tk (BPruner sc cfg k')) by (destruct e; try destruct (token_cancelled _ _); try discriminate; cbn in *; congruence).
        subst. auto.
  Qed.

  (** A worker that works has been told to stop. *)
  Definition quiet (t : tsk) : Prop :=
    match ta_body t with BWorker _ w => w_life w = Working -> w_cancelled w = true | _ => True end.

  Lemma taken_same e w w' : taken_in w' = taken_in w ->
    taken_by (mk_task (Schedule := Schedule) (Zone := Zone) 0 0 (BWorker e w')) = taken_by (mk_task (Schedule := Schedule) (Zone := Zone) 0 0 (BWorker e w)).
  Proof.
    unfold taken_by, taken_in. cbn [ta_body]. intro H.
    assert (G : forall l, flat_map (fun o => match o with Taken n m => [(n, m)] | _ => [] end) l
                = flat_map (fun o => match o with Taken n m => [(n, m)] | _ => [] end)
                    (filter (fun o => match o with Taken _ _ => true | _ => false end) l)).
    { induction l as [|o l IH]; [reflexivity|]. destruct o; cbn [flat_map filter app]; try exact IH. now rewrite IH. }
    rewrite (G (w_seen w')), (G (w_seen w)), H. reflexivity.
  Qed.

  Lemma quiet_step now s ev s' r i t :
    pstep now s ev = Some (s', r) -> nth_error (pr_tasks s) i = Some t -> quiet t ->
    exists t', nth_error (pr_tasks s') i = Some t' /\ quiet t' /\ taken_by t' = taken_by t.
  Proof.
    intros Hst Hn Hq. destruct (step_task _ _ _ _ _ _ _ Hst Hn) as [t' [H1 H2]]. exists t'. split; [exact H1|].
    destruct H2 as [->|[[_ ->]|[[e [_ H]]|[e [_ H]]]]].
    - auto.
    - unfold told. rewrite Nat.eqb_refl. destruct t as [tb tk [x w|x sc z data k|sc cfg k]]; cbn [ta_body ta_token ta_backend]; auto.
      unfold worker_step. destruct (w_life w) eqn:El; cbn; auto.
    - unfold worker_task_step in H. destruct t as [tb tk [x w|x sc z data k|sc cfg k]]; cbn [ta_body ta_token ta_backend] in H; [|destruct e; discriminate..].
      destruct (wstep x w e) as [w'|] eqn:E; [|destruct e; discriminate].
      assert (E' : t' = mk_task tb tk (BWorker x w')) by (destruct e; congruence). subst t'. unfold quiet in *. cbn [ta_body] in *.
      assert (Hc : w_cancelled w = true) by (apply Hq; unfold worker_step in E; destruct (w_life w); congruence).
      destruct (cancelled_step _ _ _ _ w e w' Hc E) as [K1 K2]. split; [auto|].
      apply (taken_same x) in K2. exact K2.
    - unfold tick_task_step in H. destruct t as [tb tk [x w|x sc z data k|sc cfg k]]; cbn [ta_body ta_token ta_backend] in H;
        [destruct e; try destruct (token_cancelled _ _); discriminate|..].
      + destruct (tick_step (upcoming sc z) k e) as [k'|]; [|destruct e; try destruct (token_cancelled _ _); discriminate].
        assert (E : t' = mk_task tb tk (BCron x sc z data k')) by (destruct e; try destruct (token_cancelled _ _); try discriminate; cbn in *; congruence).
        subst. split; reflexivity || exact Logic.I.
      + destruct (tick_step (upcoming sc utc) k e) as [k'|]; [|destruct e; try destruct (token_cancelled _ _); discriminate].
        assert (E : t' = mk_task tb tk (BPruner sc cfg k')) by (destruct e; try destruct (token_cancelled _ _); try discriminate; cbn in *; congruence).
        subst. split; reflexivity || exact Logic.I.
  Qed.
  Lemma quiet_run : forall es s s' rs i t,
    prun s es = Some (s', rs) -> nth_error (pr_tasks s) i = Some t -> quiet t ->
    exists t', nth_error (pr_tasks s') i = Some t' /\ quiet t' /\ taken_by t' = taken_by t.
  Proof.
    induction es as [|[now ev] es IH]; intros s s' rs i t Hr Hn Hq; cbn [app_run] in Hr.
    - injection Hr as <- _. eauto.
    - destruct (pstep now s ev) as [[s1 r]|] eqn:E; [|discriminate].
      destruct (prun s1 es) as [[s2 rs2]|] eqn:E2; [|discriminate]. injection Hr as <- _.
      destruct (quiet_step _ _ _ _ _ _ _ E Hn Hq) as [t1 [H1 [H2 H3]]].
      destruct (IH _ _ _ _ _ E2 H1 H2) as [t2 [K1 [K2 K3]]]. exists t2. split; [exact K1|]. split; [exact K2|congruence].
  Qed.

  Lemma ok_quiet t b : task_ok utc upcoming show b t -> b = true -> quiet t.
  Proof.
    unfold task_ok, quiet. destruct (ta_body t); auto. intros [wes [_ [_ H]]] -> Hl. auto.
  Qed.

  (** Steps of one task, lifted to the process. *)
  Lemma lift_worker i tb tk x : forall wes w w' s,
    nth_error (pr_tasks s) i = Some (mk_task tb tk (BWorker x w)) ->
    wrun x w wes = Some w' -> forallb not_cancel wes = true ->
    exists s' rs, prun s (map (fun e => (0, AWorker i e)) wes) = Some (s', rs)
      /\ nth_error (pr_tasks s') i = Some (mk_task tb tk (BWorker x w')).
  Proof.
    induction wes as [|e wes IH]; intros w w' s Hn Hr Hc; cbn [worker_run] in Hr.
    - injection Hr as <-. exists s, []. auto.
    - destruct (wstep x w e) as [w1|] eqn:E; [|discriminate]. cbn [forallb] in Hc. apply andb_true_iff in Hc. destruct Hc as [Hc1 Hc2].
      set (s1 := mk_process (pr_rexecutors s) (set_nth i (mk_task tb tk (BWorker x w1)) (pr_tasks s)) (pr_cell s)).
      assert (Hst : pstep 0 s (AWorker i e) = Some (s1, ROk tt)).
      { cbn [app_step]. rewrite Hn. unfold worker_task_step. cbn [ta_body ta_backend ta_token]. rewrite E.
        destruct e; try reflexivity. discriminate. }
      destruct (IH w1 w' s1) as [s' [rs [H1 H2]]]; [eapply nth_set_same; exact Hn|exact Hr|exact Hc2|].
      exists s', (ROk tt :: rs). split; [|exact H2]. cbn [map app_run]. rewrite Hst, H1. reflexivity.
  Qed.
  Lemma lift_cron i tb tk x sc z data : forall tes k k' s,
    nth_error (pr_tasks s) i = Some (mk_task tb tk (BCron x sc z data k)) ->
    token_cancelled (mk_task tb tk (BCron x sc z data k)) s = true ->
    tick_run (upcoming sc z) k tes = Some k' ->
    exists s' rs, prun s (map (fun e => (0, ATick i e)) tes) = Some (s', rs)
      /\ nth_error (pr_tasks s') i = Some (mk_task tb tk (BCron x sc z data k')).
  Proof.
    induction tes as [|e tes IH]; intros k k' s Hn Hc Hr; cbn [tick_run] in Hr.
    - injection Hr as <-. exists s, []. auto.
    - destruct (tick_step (upcoming sc z) k e) as [k1|] eqn:E; [|discriminate].
      set (s1 := mk_process (pr_rexecutors s) (set_nth i (mk_task tb tk (BCron x sc z data k1)) (pr_tasks s)) (pr_cell s)).
      assert (Hst : pstep 0 s (ATick i e) = Some (s1, ROk tt)).
      { cbn [app_step]. rewrite Hn. unfold tick_task_step. rewrite Hc. cbn [ta_body ta_backend ta_token]. rewrite E.
        destruct e; reflexivity. }
      destruct (IH k1 k' s1) as [s' [rs [H1 H2]]]; [eapply nth_set_same; exact Hn|exact Hc|exact Hr|].
      exists s', (ROk tt :: rs). split; [|exact H2]. cbn [map app_run]. rewrite Hst, H1. reflexivity.
  Qed.
  Lemma lift_pruner i tb tk sc cfg : forall tes k k' s,
    nth_error (pr_tasks s) i = Some (mk_task tb tk (BPruner sc cfg k)) ->
    token_cancelled (mk_task tb tk (BPruner sc cfg k)) s = true ->
    tick_run (upcoming sc utc) k tes = Some k' ->
    exists s' rs, prun s (map (fun e => (0, ATick i e)) tes) = Some (s', rs)
      /\ nth_error (pr_tasks s') i = Some (mk_task tb tk (BPruner sc cfg k')).
  Proof.
    induction tes as [|e tes IH]; intros k k' s Hn Hc Hr; cbn [tick_run] in Hr.
    - injection Hr as <-. exists s, []. auto.
    - destruct (tick_step (upcoming sc utc) k e) as [k1|] eqn:E; [|discriminate].
      set (s1 := mk_process (pr_rexecutors s) (set_nth i (mk_task tb tk (BPruner sc cfg k1)) (pr_tasks s)) (pr_cell s)).
      assert (Hst : pstep 0 s (ATick i e) = Some (s1, ROk tt)).
      { cbn [app_step]. rewrite Hn. unfold tick_task_step. rewrite Hc. cbn [ta_body ta_backend ta_token]. rewrite E.
        destruct e; reflexivity. }
      destruct (IH k1 k' s1) as [s' [rs [H1 H2]]]; [eapply nth_set_same; exact Hn|exact Hc|exact Hr|].
      exists s', (ROk tt :: rs). split; [|exact H2]. cbn [map app_run]. rewrite Hst, H1. reflexivity.
  Qed.

  (** * What is held of a [Rexecutor] *)
  Lemma gone_step now s ev s' r h x :
    pstep now s ev = Some (s', r) -> nth_error (pr_rexecutors s) h = Some x -> rx_slot x = Gone ->
    nth_error (pr_rexecutors s') h = Some x.
  Proof.
    intros Hst Hn Hg. apply step_shape in Hst.
    destruct Hst as [b -> E1 E2 E3 | k y g new En Es E2 E3 E1 _ _ _ _ _ | k y En Hsh Hng E2 E1 E3
                    | k y sl En [g Hog] E2 E1 Hev | k t0 t' En E2 E3 E1 Hev]; rewrite E2.
    - rewrite nth_error_app1; [exact Hn|eapply nth_lt; exact Hn].
    - exact Hn.
    - destruct (Nat.eq_dec k h) as [->|Hne]; [congruence|]. now rewrite nth_set_nth_other by congruence.
    - destruct (Nat.eq_dec k h) as [->|Hne]; [congruence|]. now rewrite nth_set_nth_other by congruence.
    - exact Hn.
  Qed.
  Lemma gone_run : forall es s s' rs h x,
    prun s es = Some (s', rs) -> nth_error (pr_rexecutors s) h = Some x -> rx_slot x = Gone ->
    nth_error (pr_rexecutors s') h = Some x.
  Proof.
    induction es as [|[now ev] es IH]; intros s s' rs h x Hr Hn Hg; cbn [app_run] in Hr.
    - injection Hr as <- _. exact Hn.
    - destruct (pstep now s ev) as [[s1 r]|] eqn:E; [|discriminate].
      destruct (prun s1 es) as [[s2 rs2]|] eqn:E2; [|discriminate]. injection Hr as <- _.
      eapply IH; [exact E2| |exact Hg]. eapply gone_step; eassumption.
  Qed.
End Process.
