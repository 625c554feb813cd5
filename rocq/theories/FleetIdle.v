(** Endless histories of a process on Postgres whose only task, a worker, has nothing left to do and is polled for ever. *)
From Coq Require Import Lia.
From Verif Require Import Base Chrono Types Query Memory MemSpec MemConc MemWake PgRow PgQuery Pg PgProofs PgConc PgConcSpec PgConcPast PgConcProofs PgConcEnd PgConcLive
  PgListen PgListenProofs Codec Builder Runner RunnerSpec WorkerProofs Ticker Pruner ApiSpec ApiProofs App AppSpec AppProofs AppEnd
  World WorldSpec WorldProofs WorldInv WorldThms WorldLive WorldFair Fleet FleetSpec FleetLink FleetInv FleetThms FleetLive FleetWork FairSpec FleetFair FleetRest.

Section Idle.
  Context {Schedule Zone : Type}.
  Variable utc : Zone.
  Variable upcoming : Schedule -> Zone -> time -> option time.
  Variable show : Z -> string.
  Variable hash : forall e : executor, xe_data e -> Z.
  Variable ident : option Z -> option string -> list status -> Z.
  Variable t0 : tbl.
  Notation fleet := (fleet Schedule Zone).
  Notation fev := (fleet_event Schedule Zone).
  Notation fstep := (fleet_step utc upcoming show hash ident).
  Notation frun := (fleet_run utc upcoming show hash ident).
  Notation fhist := (fhist utc upcoming show hash ident t0).
  Notation fcalls w := (q_calls (n_db (fl_net w))).
  Notation states := (states utc upcoming show hash ident t0).

  (** Nothing in hand, nothing waiting, no call under way. *)
  Definition fleet_idle (e : executor) (w : fleet) : Prop :=
    exists b tk wk s,
      length (fl_places w) = 1%nat /\ task_of 0 w = Some (mk_task b tk (BWorker e wk)) /\ polls e wk = true /\ w_flights wk = [] /\ w_cancelled wk = false
      /\ fl_streams w = [Some 0%nat] /\ n_streams (fl_net w) = [s] /\ s_executor s = ex_name (xe_consts e) /\ storable (ex_name (xe_consts e)) = true
      /\ (forall r, In r (t_rows (q_tbl (n_db (fl_net w)))) -> ~ waits_for (ex_name (xe_consts e)) r)
      /\ (forall c, In c (fcalls w) -> exists r, qc_pc c = QDone r)
      /\ match s_phase s with PCheck | PGot None | PSelect _ _ _ | PWait _ _ _ _ | PYield _ => True | _ => False end.
  Lemma none_waits ex t : storable ex = true -> (forall r, In r (t_rows t) -> ~ waits_for ex r) -> pg_next_available ex t = Ok None.
  Proof.
    intros Hs Hr. destruct (pg_next_available ex t) as [[ts|]|er|] eqn:E.
    - destruct (next_available_rows _ _ _ E) as [_ K]. destruct (K ts eq_refl) as [r [K1 [K2 [K3 _]]]]. destruct (Hr r K1). split; assumption.
    - reflexivity.
    - unfold pg_next_available in E. rewrite Hs in E. discriminate E.
    - unfold pg_next_available in E. rewrite Hs in E. discriminate E.
  Qed.
  Lemma fidle_step now e w : fleet_idle e w -> exists w', fstep now w (FPoll 0) = Some w' /\ fleet_idle e w'.
  Proof.
    intros [b [tk [wk [s [I1 [I2 [I3 [I4 [I5 [I6 [I7 [I8 [I9 [I10 [I11 I12]]]]]]]]]]]]]]].
    assert (exists ph, pstream_step now (n_db (fl_net w)) 0 s = (ph, None, [])
              /\ match ph with PCheck | PGot None | PSelect _ _ _ | PWait _ _ _ _ => True | _ => False end) as [ph [E Hph]].
    { unfold pstream_step. destruct (s_phase s) as [|[t|]|t rd d|t rd d c|t rd d|t rd sl d|r]; try destruct I12.
      - rewrite I8, none_waits by assumption. eexists. split; [reflexivity|exact Logic.I].
      - cbn zeta. replace (pg_delay None now <=? pg_delta) with false by reflexivity. eexists. split; [reflexivity|exact Logic.I].
      - eexists. split; [reflexivity|exact Logic.I].
      - destruct (sl + d <=? now); eexists; (split; [reflexivity|exact Logic.I]).
      - eexists. split; [reflexivity|exact Logic.I]. }
    assert (N : fl_net (on_net ident now (NStream 0 now) w) = mk_n (n_db (fl_net w)) (n_clients (fl_net w)) [set_phase ph s]).
    { unfold on_net. cbn [fl_net nstep]. rewrite I7. cbn [nth_error]. rewrite E. reflexivity. }
    exists (on_net ident now (NStream 0 now) w). split.
    - cbn [fleet_step]. unfold fleet_poll, polled. rewrite I2, I6. cbn [nth_error ta_body]. rewrite I3. unfold phase_of. rewrite N. cbn [n_streams nth_error option_map].
      change (s_phase (set_phase ph s)) with ph. destruct ph as [|[t|]|t rd d|t rd d c|t rd d|t rd sl d|r]; try destruct Hph; reflexivity.
    - exists b, tk, wk, (set_phase ph s). rewrite N. cbn [n_streams n_db].
      do 11 (split; [first [assumption|reflexivity]|]). change (s_phase (set_phase ph s)) with ph. destruct ph as [|[t|]|t rd d|t rd d c|t rd d|t rd sl d|r]; try destruct Hph; exact Logic.I.
  Qed.
  Lemma fidle_still e w i q : fleet_idle e w -> ~ possible fstep (fleet_step_with i q) w.
  Proof.
    intros [b [tk [wk [s [I1 [I2 [I3 [I4 _]]]]]]]] [now [ev [w' [Hs H]]]]. pose proof (about_with _ _ _ Hs) as Ho.
    destruct (no_such_task _ _ _ _ _ _ _ _ _ _ H Ho) as [t Ht].
    assert (i = 0)%nat as ->.
    { unfold task_of in Ht. destruct (nth_error (fl_places w) i) eqn:E; [|discriminate]. apply nth_lt in E. lia. }
    assert (Hn : NoDup (fl_places w)).
    { destruct (fl_places w) as [|x [|y l]]; try discriminate I1. repeat constructor. intros []. }
    destruct (fworker_becomes utc upcoming show hash ident _ _ _ _ 0 _ e wk H Hn I2 eq_refl) as [wk' [_ B]].
    destruct B as [[B _]|[[B _]|[a [B [_ D]]]]]; [exact (B Ho)|exact (B Ho)|]. assert (about q a) as A by (eapply does_about; eassumption).
    unfold worker_step in B. destruct (w_life wk); try discriminate. destruct a; cbn in A; try destruct A; rewrite I4 in B; discriminate B.
  Qed.

  Definition then_looks (T : time) (es : list (time * fev)) (n : nat) : time * fev := nth n es (T + Z.of_nat n, FPoll 0).
  Lemma looks_first T es n : exists l, first n (then_looks T es) = firstn n es ++ l /\ (forall x, In x l -> snd x = FPoll 0) /\ ((n <= length es)%nat -> l = []).
  Proof using.
    clear utc upcoming show hash ident t0. induction n as [|n [l [IH [H1 H2]]]]; [exists []; split; [reflexivity|]; split; [intros x []|auto]|].
    rewrite first_S, IH. unfold then_looks. destruct (Nat.lt_ge_cases n (length es)) as [L|L].
    - exists []. rewrite H2 by lia. rewrite !app_nil_r. split; [|split; [intros x []|auto]].
      clear IH H1 H2. revert n L. induction es as [|x es IHe]; intros n L; [cbn in L; lia|]. destruct n as [|n]; [reflexivity|].
      change (firstn (S (S n)) (x :: es)) with (x :: firstn (S n) es). rewrite <- IHe by (cbn in L; lia). cbn [firstn nth app]. do 3 f_equal. apply nth_indep. cbn in L. lia.
    - rewrite nth_overflow by exact L. rewrite !firstn_all2 by lia. exists (l ++ [(T + Z.of_nat n, FPoll 0)]). rewrite app_assoc. split; [reflexivity|].
      split; [intros x Hx; apply in_app_or in Hx; destruct Hx as [Hx|[<-|[]]]; [auto|reflexivity]|lia].
  Qed.
  Lemma fidle_run e : forall l w, fleet_idle e w -> (forall x, In x l -> snd x = FPoll 0) -> exists w', frun w l = Some w' /\ fleet_idle e w'.
  Proof.
    induction l as [|[now ev] l IH]; intros w I Hl; [exists w; auto|]. pose proof (Hl (now, ev) (or_introl eq_refl)) as E. cbn [snd] in E. subst ev.
    destruct (fidle_step now e w I) as [w1 [E1 I1]]. cbn [fleet_run]. rewrite E1. apply IH; [exact I1|]. intros x Hx. apply Hl. right. exact Hx.
  Qed.
  Theorem fidle_history T es w e : frun (fleet_init t0) es = Some w -> fleet_idle e w ->
    let ev := then_looks T es in
    fhist (states ev) ev /\ calls_move (states ev) /\ (forall i q, just fstep (fleet_step_with i q) (states ev) ev)
    /\ just fstep (eq (FPoll 0)) (states ev) ev /\ time_passes ev
    /\ (forall n, (length es <= n)%nat -> fleet_idle e (states ev n))
    /\ (forall n, (n <= length es)%nat -> first n ev = firstn n es /\ frun (fleet_init t0) (firstn n es) = Some (states ev n)).
  Proof.
    intros H R ev.
    assert (Run : forall n, (length es <= n)%nat -> fleet_idle e (states ev n)).
    { intros n L. unfold FleetRest.states, ev. destruct (looks_first T es n) as [l [-> [Hl _]]]. rewrite firstn_all2 by exact L. rewrite (frun_app utc upcoming show hash ident), H.
      destruct (fidle_run e l w R Hl) as [w' [E R']]. rewrite E. exact R'. }
    assert (Pre : forall n, frun (fleet_init t0) (firstn n es) <> None).
    { intros n K. rewrite <- (firstn_skipn n es), (frun_app utc upcoming show hash ident), K in H. discriminate. }
    assert (Hh : fhist (states ev) ev).
    { apply states_history. intro n. unfold ev. destruct (looks_first T es n) as [l [-> [Hl Hs]]]. rewrite (frun_app utc upcoming show hash ident). destruct (Nat.le_gt_cases n (length es)) as [L|L].
      - rewrite (Hs L). specialize (Pre n). destruct (frun (fleet_init t0) (firstn n es)); [cbn; discriminate|congruence].
      - rewrite firstn_all2 by lia. rewrite H. destruct (fidle_run e l w R Hl) as [w' [E _]]. rewrite E. discriminate. }
    split; [exact Hh|]. split; [|split; [|split; [|split; [|split; [exact Run|]]]]].
    - intros n c x Hx. exists (Nat.max n (length es)). split; [lia|]. right.
      destruct (proj2 (fgrown utc upcoming show hash ident t0 _ _ Hh n (Nat.max n (length es)) ltac:(lia)) c x Hx) as [[o pc] [Hc' _]].
      destruct (Run (Nat.max n (length es)) ltac:(lia)) as [b [tk [wk [s [_ [_ [_ [_ [_ [_ [_ [_ [_ [_ [I11 _]]]]]]]]]]]]]]].
      destruct (I11 _ (nth_error_In _ _ Hc')) as [r Hr]. cbn in Hr. subst pc. exists o, r. exact Hc'.
    - intros i q n. exists (Nat.max n (length es)). split; [lia|]. right. eapply fidle_still. apply Run. lia.
    - intro n. exists (Nat.max n (length es)). split; [lia|]. left. unfold ev, then_looks. rewrite nth_overflow by lia. reflexivity.
    - intro T0. exists (Nat.max (length es) (Z.to_nat (T0 - T))). intros m L. unfold ev, then_looks. rewrite nth_overflow by lia. cbn [fst]. unfold time in *. lia.
    - intros n L. unfold FleetRest.states, ev. destruct (looks_first T es n) as [l [-> [_ Hs]]]. rewrite (Hs L), app_nil_r. split; [reflexivity|].
      specialize (Pre n). destruct (frun (fleet_init t0) (firstn n es)); [reflexivity|congruence].
  Qed.
End Idle.
