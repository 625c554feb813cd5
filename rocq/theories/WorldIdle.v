(** Endless histories of a program whose only task, a worker, has nothing left to do and is polled for ever. *)
From Coq Require Import Lia.
From Verif Require Import Base Chrono Types Query Memory MemSpec MemProofs MemHist2 MemNotify MemConc MemConcSpec MemConcProofs MemConcThms MemWake
  Codec Builder Runner RunnerSpec WorkerProofs Ticker Pruner ApiSpec ApiProofs App AppSpec AppProofs AppEnd World WorldSpec WorldProofs WorldInv WorldThms WorldLive FairSpec WorldFair WorldRest.

Section Idle.
  Context {Schedule Zone : Type}.
  Variable utc : Zone.
  Variable upcoming : Schedule -> Zone -> time -> option time.
  Variable show : Z -> string.
  Variable hash : forall e : executor, xe_data e -> Z.
  Variable p : profile.
  Notation world := (world Schedule Zone).
  Notation vev := (world_event Schedule Zone).
  Notation vstep := (world_step utc upcoming show hash p).
  Notation vrun := (world_run utc upcoming show hash p).
  Notation vhist := (vhist utc upcoming show hash p).
  Notation states := (states utc upcoming show hash p).

  (** Nothing in hand, nothing waiting, no call under way. *)
  Definition idle (e : executor) (w : world) : Prop :=
    exists tk wk s sb ph,
      pr_tasks (wd_process w) = [mk_task 0 tk (BWorker e wk)] /\ polls e wk = true /\ w_flights wk = [] /\ w_cancelled wk = false
      /\ wd_streams w = [Some 0%nat] /\ wd_stores w = [s] /\ m_subs (c_mem s) = [sb] /\ sub_executor sb = ex_name (xe_consts e)
      /\ m_poisoned (c_mem s) = false /\ (forall j, In j (jobs_of (c_mem s)) -> ~ waiting j)
      /\ (forall c, In c (c_calls s) -> exists r, cl_pc c = PcDone r)
      /\ c_streams s = [ph] /\ match ph with SCheck | SGot None | SSelect _ _ _ | SWait _ _ _ _ | SYield _ => True | _ => False end.
  Lemma none_available ex m : m_poisoned m = false -> (forall j, In j (jobs_of m) -> ~ waiting j) -> next_available ex m = Ok None.
  Proof.
    intros Hp Hj. destruct (next_available ex m) as [[ts|]|er|] eqn:E.
    - destruct (next_available_spec _ _ _ E) as [_ K]. destruct (K ts eq_refl) as [k [K1 [K2 _]]]. destruct (Hj (kj_job k)); [apply in_map; exact K1|exact K2].
    - reflexivity.
    - unfold next_available, mem_query, matching_jobs in E. rewrite Hp in E. discriminate E.
    - unfold next_available, mem_query, matching_jobs in E. rewrite Hp in E. discriminate E.
  Qed.
  Lemma idle_step now e w : idle e w -> exists w', vstep now w (VPoll 0) = Some w' /\ idle e w'.
  Proof.
    intros [tk [wk [s [sb [ph [I1 [I2 [I3 [I4 [I5 [I6 [I7 [I8 [I9 [I10 [I11 [I12 I13]]]]]]]]]]]]]]]]].
    assert (exists ph', stream_step p 0 now (c_mem s) sb ph = (c_mem s, ph', [])
              /\ match ph' with SCheck | SGot None | SSelect _ _ _ | SWait _ _ _ _ => True | _ => False end) as [ph' [E Hph]].
    { destruct ph as [|[t|]|t rd d|t rd d|t rd sl d|r|]; try destruct I13; cbn [stream_step].
      - rewrite none_available by assumption. eexists. split; [reflexivity|exact Logic.I].
      - eexists. split; [reflexivity|exact Logic.I].
      - eexists. split; [reflexivity|exact Logic.I].
      - destruct (sl + d <=? now); eexists; (split; [reflexivity|exact Logic.I]).
      - eexists. split; [reflexivity|exact Logic.I]. }
    cbn [world_step]. unfold world_poll. rewrite I1, I5. cbn [nth_error ta_body ta_backend]. rewrite I2. unfold on_store. rewrite I6. cbn [nth_error].
    unfold stream_at. cbn [wd_stores set_nth nth_error conc_step]. rewrite I12, I7. cbn [nth_error]. rewrite E. cbn [fst c_streams set_nth nth_error].
    exists (mk_world (wd_process w) [mk_c (c_mem s) (c_calls s) [ph']] (wd_streams w) (wd_asks w) (wd_log w ++ [(now, OnStore 0%nat (LStream 0%nat now))])).
    split; [destruct ph' as [|[t|]|t rd d|t rd d|t rd sl d|r|]; try destruct Hph; reflexivity|].
    exists tk, wk, (mk_c (c_mem s) (c_calls s) [ph']), sb, ph'. cbn [wd_process wd_streams wd_stores c_mem c_calls c_streams].
    do 12 (split; [first [assumption|reflexivity]|]). destruct ph' as [|[t|]|t rd d|t rd d|t rd sl d|r|]; try destruct Hph; exact Logic.I.
  Qed.
  Lemma idle_still e w i q : idle e w -> ~ possible vstep (step_with i q) w.
  Proof.
    intros [tk [wk [s [sb [ph [I1 [I2 [I3 _]]]]]]]] [now [ev [w' [Hs H]]]]. pose proof (about_with _ _ _ Hs) as Ho.
    destruct (no_such_task _ _ _ _ _ _ _ _ _ _ H Ho) as [t Ht]. rewrite I1 in Ht. destruct i as [|i]; [|destruct i; discriminate]. injection Ht as <-.
    destruct (worker_becomes utc upcoming show hash p _ _ _ _ 0 (mk_task 0 tk (BWorker e wk)) e wk H) as [wk' [_ B]]; [rewrite I1; reflexivity|reflexivity|].
    destruct B as [[B _]|[[B _]|[a [B [_ D]]]]]; [exact (B Ho)|exact (B Ho)|]. assert (about q a) as A by (eapply does_about; eassumption).
    unfold worker_step in B. destruct (w_life wk); try discriminate. destruct a; cbn in A; try destruct A; rewrite I3 in B; discriminate B.
  Qed.

  Definition then_poll (T : time) (es : list (time * vev)) (n : nat) : time * vev := nth n es (T + Z.of_nat n, VPoll 0).
  Lemma poll_first T es n : exists l, first n (then_poll T es) = firstn n es ++ l /\ (forall x, In x l -> snd x = VPoll 0) /\ ((n <= length es)%nat -> l = []).
  Proof using.
    clear utc upcoming show hash p. induction n as [|n [l [IH [H1 H2]]]]; [exists []; split; [reflexivity|]; split; [intros x []|auto]|].
    rewrite first_S, IH. unfold then_poll. destruct (Nat.lt_ge_cases n (length es)) as [L|L].
    - exists []. rewrite H2 by lia. rewrite !app_nil_r. split; [|split; [intros x []|auto]].
      clear IH H1 H2. revert n L. induction es as [|x es IHe]; intros n L; [cbn in L; lia|]. destruct n as [|n]; [reflexivity|].
      change (firstn (S (S n)) (x :: es)) with (x :: firstn (S n) es). rewrite <- IHe by (cbn in L; lia). cbn [firstn nth app]. do 3 f_equal. apply nth_indep. cbn in L. lia.
    - rewrite nth_overflow by exact L. rewrite !firstn_all2 by lia. exists (l ++ [(T + Z.of_nat n, VPoll 0)]). rewrite app_assoc. split; [reflexivity|].
      split; [intros x Hx; apply in_app_or in Hx; destruct Hx as [Hx|[<-|[]]]; [auto|reflexivity]|lia].
  Qed.
  Lemma idle_run e : forall l w, idle e w -> (forall x, In x l -> snd x = VPoll 0) -> exists w', vrun w l = Some w' /\ idle e w'.
  Proof.
    induction l as [|[now ev] l IH]; intros w I Hl; [exists w; auto|]. pose proof (Hl (now, ev) (or_introl eq_refl)) as E. cbn [snd] in E. subst ev.
    destruct (idle_step now e w I) as [w1 [E1 I1]]. cbn [world_run]. rewrite E1. apply IH; [exact I1|]. intros x Hx. apply Hl. right. exact Hx.
  Qed.
  Theorem idle_history T es w e : vrun world_init es = Some w -> idle e w ->
    let ev := then_poll T es in
    vhist (states ev) ev /\ calls_go_on (states ev) ev /\ (forall i q, just vstep (step_with i q) (states ev) ev)
    /\ just vstep (eq (VPoll 0)) (states ev) ev /\ time_passes ev
    /\ (forall n, (length es <= n)%nat -> idle e (states ev n))
    /\ (forall n, (n <= length es)%nat -> first n ev = firstn n es /\ vrun world_init (firstn n es) = Some (states ev n)).
  Proof.
    intros H R ev.
    assert (Run : forall n, (length es <= n)%nat -> idle e (states ev n)).
    { intros n L. unfold WorldRest.states, ev. destruct (poll_first T es n) as [l [-> [Hl _]]]. rewrite firstn_all2 by exact L. rewrite vrun_app, H.
      destruct (idle_run e l w R Hl) as [w' [E R']]. rewrite E. exact R'. }
    assert (Pre : forall n, vrun world_init (firstn n es) <> None).
    { intros n K. rewrite <- (firstn_skipn n es), vrun_app, K in H. discriminate. }
    assert (Hh : vhist (states ev) ev).
    { apply states_history. intro n. unfold ev. destruct (poll_first T es n) as [l [-> [Hl Hs]]]. rewrite vrun_app. destruct (Nat.le_gt_cases n (length es)) as [L|L].
      - rewrite (Hs L). specialize (Pre n). destruct (vrun world_init (firstn n es)); [cbn; discriminate|congruence].
      - rewrite firstn_all2 by lia. rewrite H. destruct (idle_run e l w R Hl) as [w' [E _]]. rewrite E. discriminate. }
    split; [exact Hh|]. split; [|split; [|split; [|split; [|split; [exact Run|]]]]].
    - intros n b s c x Hs Hc. exists (Nat.max n (length es)). split; [lia|]. right.
      destruct (proj2 (vgrown utc upcoming show hash p _ _ Hh n (Nat.max n (length es)) ltac:(lia)) b s Hs) as [s' [Hs' K]].
      destruct (K c x Hc (calls_ok utc upcoming show hash p _ _ _ _ _ _ (vreach utc upcoming show hash p _ _ Hh n) Hs Hc)) as [x' [Hc' _]].
      destruct (Run (Nat.max n (length es)) ltac:(lia)) as [tk [wk [s0 [sb [ph [I1 [I2 [I3 [I4 [I5 [I6 [I7 [I8 [I9 [I10 [I11 _]]]]]]]]]]]]]]]].
      pose proof Hs' as Hs2. rewrite I6 in Hs2. destruct b as [|b]; [|destruct b; discriminate]. injection Hs2 as <-.
      destruct (I11 x' (nth_error_In _ _ Hc')) as [r Hr]. exists s0, x', r. auto.
    - intros i q n. exists (Nat.max n (length es)). split; [lia|]. right. eapply idle_still. apply Run. lia.
    - intro n. exists (Nat.max n (length es)). split; [lia|]. left. unfold ev, then_poll. rewrite nth_overflow by lia. reflexivity.
    - intro T0. exists (Nat.max (length es) (Z.to_nat (T0 - T))). intros m L. unfold ev, then_poll. rewrite nth_overflow by lia. cbn [fst]. unfold time in *. lia.
    - intros n L. unfold WorldRest.states, ev. destruct (poll_first T es n) as [l [-> [_ Hs]]]. rewrite (Hs L), app_nil_r. split; [reflexivity|].
      specialize (Pre n). destruct (vrun world_init (firstn n es)); [reflexivity|congruence].
  Qed.
End Idle.
