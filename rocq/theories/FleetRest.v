(** Endless histories of processes that share Postgres: those in which everything has come to an end, and those of a loop
    that never sees that it has been told to stop. *)
From Coq Require Import Lia.
From Verif Require Import Base Chrono Types Query Memory MemSpec MemConc MemWake PgRow PgQuery Pg PgConc PgConcSpec PgConcPast PgConcProofs PgConcEnd PgConcLive
  PgListen PgListenProofs Codec Builder Runner RunnerSpec WorkerProofs Ticker Pruner ApiSpec ApiProofs PropsApi App AppSpec AppProofs AppEnd PropsApp
  World WorldSpec WorldProofs WorldInv WorldThms WorldLive WorldFair WorldRest Fleet FleetSpec FleetLink FleetInv FleetThms FleetLive FairSpec FleetFair.

Section Rest.
  Context {Schedule Zone : Type}.
  Variable utc : Zone.
  Variable upcoming : Schedule -> Zone -> time -> option time.
  Variable show : Z -> string.
  Variable hash : forall e : executor, xe_data e -> Z.
  Variable ident : option Z -> option string -> list status -> Z.
  Variable t0 : tbl.
  Notation fleet := (fleet Schedule Zone).
  Notation tsk := (task Schedule Zone).
  Notation fev := (fleet_event Schedule Zone).
  Notation fstep := (fleet_step utc upcoming show hash ident).
  Notation frun := (fleet_run utc upcoming show hash ident).
  Notation fhist := (fhist utc upcoming show hash ident t0).
  Notation fcalls w := (q_calls (n_db (fl_net w))).

  (** The states that events lead to. *)
  Definition states (ev : nat -> time * fev) (n : nat) : fleet :=
    match frun (fleet_init t0) (first n ev) with Some w => w | None => (fleet_init t0) end.
  Lemma first_S (ev : nat -> time * fev) n : first (S n) ev = first n ev ++ [ev n].
  Proof using. unfold first. rewrite seq_S, map_app. reflexivity. Qed.
  Lemma states_history ev : (forall n, frun (fleet_init t0) (first n ev) <> None) -> fhist (states ev) ev.
  Proof.
    intro H. split; [reflexivity|]. intro n. unfold states. pose proof (H (S n)) as H1. rewrite first_S, (frun_app utc upcoming show hash ident) in *.
    destruct (frun (fleet_init t0) (first n ev)) as [w|]; [|congruence]. cbn [fleet_run] in *. destruct (ev n) as [now e]. cbn [fst snd] in *.
    destruct (fstep now w e); congruence.
  Qed.

  (** * Nothing is left to do *)
  Definition over (t : tsk) : Prop := ended t \/ died t.
  Definition at_rest (w : fleet) : Prop :=
    (forall g t, task_of g w = Some t -> over t) /\ NoDup (fl_places w) /\ forall c, In c (fcalls w) -> exists r, qc_pc c = QDone r.

  Lemma on_worker_task now w g e w' : on_worker utc upcoming show now g e w = Some w' -> exists t, task_of g w = Some t.
  Proof.
    unfold on_worker, on_node, task_of. destruct (nth_error (fl_places w) g) as [[q i]|]; [|discriminate].
    destruct (nth_error (fl_nodes w) q) as [s|]; [|discriminate]. cbn [app_step]. destruct (nth_error (pr_tasks s) i); [eauto|discriminate].
  Qed.
  Lemma on_tick_task now w g e w' : on_tick utc upcoming show now g e w = Some w' -> exists t, task_of g w = Some t.
  Proof.
    unfold on_tick, on_node, task_of. destruct (nth_error (fl_places w) g) as [[q i]|]; [|discriminate].
    destruct (nth_error (fl_nodes w) q) as [s|]; [|discriminate]. cbn [app_step]. destruct (nth_error (pr_tasks s) i); [eauto|discriminate].
  Qed.
  Lemma no_such_task now w ev w' i : fstep now w ev = Some w' -> fleet_step_of i ev -> exists t, task_of i w = Some t.
  Proof.
    intros H Hs. destruct ev as [|q|q a|o|c pick|c er|c|c|c|g|g|g|g|g n|g n now1 now2 o|g n|g|g c0 c1|g c|g|g c|g c]; cbn [fleet_step_of] in Hs; try destruct Hs; cbn [fleet_step] in H;
      try (eapply on_worker_task; exact H); try (eapply on_tick_task; exact H).
    - unfold fleet_end in H. destruct (on_worker _ _ _ now g _ w) eqn:E; [|discriminate]. eapply on_worker_task. exact E.
    - unfold fleet_answer in H. destruct (answers g n w) as [|[[| | | | | | | | | |[|r| |]]|] [|]]; try discriminate. eapply on_worker_task. exact H.
    - unfold fleet_wake in H. destruct (on_tick _ _ _ now g _ w) eqn:E; [|discriminate]. eapply on_tick_task. exact E.
    - unfold fleet_acted in H. destruct (task_of g w); [eauto|discriminate].
  Qed.
  Lemma rest_still w i : at_rest w -> ~ possible fstep (fleet_step_of i) w.
  Proof.
    intros [R [Hn _]] [now [ev [w' [Hs H]]]]. destruct (no_such_task _ _ _ _ _ H Hs) as [t Ht].
    destruct (fstep_becomes _ _ _ _ _ _ _ _ _ _ _ H Hn Ht) as [t' [_ [[B _]|[[a [B _]]|[a [B _]]]]]]; [exact (B Hs)| |].
    - specialize (R i t Ht). unfold over, ended, died, worker_task_step in *. destruct (ta_body t) as [e wk| |]; [|destruct a; discriminate..].
      assert (E : forall l, worker_step (xe_codec e) (xe_fns e) show l wk a = None) by (intros; unfold worker_step; destruct R as [-> | ->]; reflexivity).
      rewrite E in B. destruct a; discriminate.
    - specialize (R i t Ht). unfold over, ended, died, tick_task_step in *.
      assert (E : forall up k, tk_phase k = Stopped \/ tk_phase k = Crashed -> tick_step up k a = None) by (intros up k [E|E]; unfold tick_step; rewrite E; reflexivity).
      destruct (ta_body t) as [e wk|e sc z d k|sc cfg k]; [|rewrite (E _ _ R) in B|rewrite (E _ _ R) in B];
        destruct a; try discriminate; match type of B with match ?x with _ => _ end = _ => destruct x end; discriminate.
  Qed.
  (** A call that was never made does nothing. *)
  Lemma rest_goes now w n : at_rest w -> nth_error (fcalls w) n = None -> exists w', fstep now w (FRun n 0) = Some w' /\ at_rest w' /\ nth_error (fcalls w') n = None.
  Proof.
    intros R Hn. cbn [fleet_step]. eexists. split; [reflexivity|].
    assert (E : fcalls (on_net ident now (NDb (QRun n now 0)) w) = fcalls w).
    { cbn [on_net fl_net nstep]. unfold db_step. cbn [qstep]. rewrite Hn. reflexivity. }
    split; [|rewrite E; exact Hn]. destruct R as [R1 [R2 R3]]. split; [exact R1|]. split; [exact R2|]. rewrite E. exact R3.
  Qed.

  Definition then_rest (T : time) (c : nat) (es : list (time * fev)) (n : nat) : time * fev := nth n es (T, FRun c 0).
  Lemma then_first T c es n : first n (then_rest T c es) = firstn n es ++ repeat (T, FRun c 0) (n - length es).
  Proof using.
    clear utc upcoming show hash ident t0. induction n as [|n IH]; [reflexivity|]. rewrite first_S, IH. unfold then_rest. destruct (Nat.lt_ge_cases n (length es)) as [L|L].
    - replace (n - length es)%nat with 0%nat by lia. replace (S n - length es)%nat with 0%nat by lia. cbn [repeat]. rewrite !app_nil_r.
      clear IH. revert n L. induction es as [|x es IHe]; intros n L; [cbn in L; lia|]. destruct n as [|n]; [reflexivity|].
      cbn [firstn nth app]. f_equal. apply IHe. cbn in L. lia.
    - rewrite nth_overflow by exact L. rewrite !firstn_all2 by lia. rewrite <- app_assoc. f_equal.
      replace (S n - length es)%nat with (S (n - length es)) by lia. rewrite <- repeat_cons. reflexivity.
  Qed.
  Lemma rest_run T c w : at_rest w -> nth_error (fcalls w) c = None -> forall n, exists w', frun w (repeat (T, FRun c 0) n) = Some w' /\ at_rest w'.
  Proof.
    intros R Hc n. revert w R Hc. induction n as [|n IH]; intros w R Hc; [exists w; auto|]. destruct (rest_goes T w c R Hc) as [w1 [H1 [R1 C1]]].
    cbn [repeat fleet_run]. rewrite H1. apply IH; assumption.
  Qed.
  Theorem rest_history T c es w : frun (fleet_init t0) es = Some w -> at_rest w -> nth_error (fcalls w) c = None ->
    let ev := then_rest T c es in
    fhist (states ev) ev /\ calls_move (states ev) /\ (forall i, just fstep (fleet_step_of i) (states ev) ev) /\ (forall i n, just fstep (fleet_step_with i n) (states ev) ev)
    /\ (forall i, compassionate fstep (eq (FLeave i)) (states ev) ev) /\ states ev (length es) = w.
  Proof.
    intros H R Hc ev.
    assert (Run : forall n, (length es <= n)%nat -> at_rest (states ev n)).
    { intros n L. unfold states, ev. rewrite then_first, firstn_all2 by exact L. rewrite (frun_app utc upcoming show hash ident), H.
      destruct (rest_run T c w R Hc (n - length es)) as [w' [E R']]. rewrite E. exact R'. }
    assert (Hh : fhist (states ev) ev).
    { apply states_history. intro n. unfold ev. rewrite then_first, (frun_app utc upcoming show hash ident). destruct (Nat.lt_ge_cases n (length es)) as [L|L].
      - replace (n - length es)%nat with 0%nat by lia. cbn [repeat].
        rewrite <- (firstn_skipn n es), (frun_app utc upcoming show hash ident) in H. destruct (frun (fleet_init t0) (firstn n es)); [cbn; discriminate|discriminate].
      - rewrite firstn_all2 by exact L. rewrite H. destruct (rest_run T c w R Hc (n - length es)) as [w' [E _]]. rewrite E. discriminate. }
    split; [exact Hh|]. split.
    - intros n c' x Hx. exists (Nat.max n (length es)). split; [lia|]. right.
      destruct (proj2 (fgrown utc upcoming show hash ident t0 _ _ Hh n (Nat.max n (length es)) ltac:(lia)) c' x Hx) as [[o pc] [Hc' _]].
      destruct (proj2 (proj2 (Run (Nat.max n (length es)) ltac:(lia))) _ (nth_error_In _ _ Hc')) as [r Hr]. cbn in Hr. subst pc. exists o, r. exact Hc'.
    - assert (J : forall (P : fev -> Prop) i, (forall e, P e -> fleet_step_of i e) -> forall n, exists m, (n <= m)%nat /\ forall m', (m <= m')%nat -> ~ possible fstep P (states ev m')).
      { intros P i HP n. exists (Nat.max n (length es)). split; [lia|]. intros m' L [now [e [w' [Hp Hs]]]].
        apply (rest_still (states ev m') i); [apply Run; lia|]. exists now, e, w'. auto. }
      split; [|split; [|split]].
      + intros i n. destruct (J (fleet_step_of i) i (fun e K => K) n) as [m [L K]]. exists m. split; [exact L|]. right. apply K. lia.
      + intros i q n. destruct (J (fleet_step_with i q) i (about_with i q) n) as [m [L K]]. exists m. split; [exact L|]. right. apply K. lia.
      + intros i n. destruct (J (eq (FLeave i)) i) with (n := n) as [m [L K]]; [intros e <-; reflexivity|]. exists m. split; [exact L|]. right. exact K.
      + unfold states, ev. rewrite then_first, firstn_all, Nat.sub_diag. cbn [repeat]. rewrite app_nil_r, H. reflexivity.
  Qed.
End Rest.

(** * A loop that goes on after it has been told to stop *)
Section Loop.
  Context {Schedule Zone : Type}.
  Variable utc : Zone.
  Variable upcoming : Schedule -> Zone -> time -> option time.
  Variable show : Z -> string.
  Variable hash : forall e : executor, xe_data e -> Z.
  Variable ident : option Z -> option string -> list status -> Z.
  Variable t0 : tbl.
  Variable sc : Schedule.
  Hypothesis more : forall c, upcoming sc utc c <> None.
  Notation fleet := (fleet Schedule Zone).
  Notation fev := (fleet_event Schedule Zone).
  Notation fstep := (fleet_step utc upcoming show hash ident).
  Notation frun := (fleet_run utc upcoming show hash ident).
  Notation fhist := (fhist utc upcoming show hash ident t0).
  Notation fcalls w := (q_calls (n_db (fl_net w))).

  Definition told_loop : list (time * fev) :=
    [(0, FNode); (0, FOpen 0); (0, FApp 0 (ANew 0)); (0, FApp 0 (APruner 0 sc no_rules)); (0, FApp 0 (AShutdown 0))].
  (** The loop never looks at its token. *)
  Definition drive (w : fleet) : fev :=
    match task_of 0 w with
    | Some t =>
        match ta_body t with
        | BPruner _ _ k =>
            match tk_phase k with
            | Computing => FCompute 0 (tk_clock k) (tk_clock k)
            | Sleeping _ u => FWake 0 (Z.max (tk_clock k) u)
            | Acting _ => FActed 0 (tk_clock k)
            | Resting u => FRested 0 (Z.max (tk_clock k) u)
            | _ => FNode
            end
        | _ => FNode
        end
    | _ => FNode
    end.
  Definition start_of (n : nat) : fleet := match frun (fleet_init t0) (firstn n told_loop) with Some w => w | None => (fleet_init t0) end.
  Fixpoint driven (n : nat) : fleet :=
    match n with
    | O => start_of 5
    | S n => match fstep 0 (driven n) (drive (driven n)) with Some w => w | None => driven n end
    end.
  Definition loop_states (n : nat) : fleet := match n with 0 | 1 | 2 | 3 | 4 => start_of n | _ => driven (n - 5) end%nat.
  Definition loop_events (n : nat) : time * fev := nth n told_loop (0, drive (driven (n - 5))).

  Definition looping (w : fleet) : Prop :=
    exists k s, fl_nodes w = [s] /\ pr_tasks s = [mk_task 0 0 (BPruner sc no_rules k)] /\ fl_places w = [(0, 0)]%nat
      /\ tk_phase k <> Stopped /\ tk_phase k <> Crashed /\ fl_asks w = [] /\ fcalls w = [].
  Lemma drive_step w : looping w -> exists w', fstep 0 w (drive w) = Some w' /\ looping w' /\ fleet_step_of 0 (drive w).
  Proof.
    intros [k [s [Es [Et [Ep0 [P1 [P2 [Ea Ec]]]]]]]].
    assert (E0 : task_of 0 w = Some (mk_task 0 0 (BPruner sc no_rules k))) by (unfold task_of; rewrite Ep0; cbn [nth_error]; rewrite Es; cbn [nth_error]; rewrite Et; reflexivity).
    unfold drive. rewrite E0. cbn [ta_body].
    assert (Go : forall a k', tick_step (upcoming sc utc) k a = Some k' -> a <> Cancel ->
              exists w', on_tick utc upcoming show 0 0 a w = Some w' /\ (tk_phase k' <> Stopped -> tk_phase k' <> Crashed -> looping w') /\ task_of 0 w' = Some (mk_task 0 0 (BPruner sc no_rules k'))).
    { intros a k' Hs Ha. unfold on_tick, on_node. rewrite Ep0. cbn [nth_error]. rewrite Es. cbn [nth_error app_step]. rewrite Et. cbn [nth_error].
      unfold tick_task_step. cbn [ta_body ta_backend ta_token]. rewrite Hs.
      destruct a; try congruence; (eexists; split; [reflexivity|]);
        (split; [intros Q1 Q2; exists k'; eexists; cbn [fl_nodes fl_places fl_asks fl_net set_nth]; split; [reflexivity|]; cbn; rewrite ?Et; auto 10
                |unfold task_of; cbn [fl_places fl_nodes]; rewrite ?Ep0; cbn; rewrite ?Et; reflexivity]). }
    destruct (tk_phase k) as [|nx u|nx|u| |] eqn:Ep; try congruence.
    - destruct (upcoming sc utc (tk_clock k)) as [nx|] eqn:Eu; [|destruct (more _ Eu)].
      destruct (Go (Compute (tk_clock k) (tk_clock k)) (mk_ticker (Sleeping nx (tk_clock k + tick_delay nx (tk_clock k))) (tk_clock k) (tk_fired k))) as [w' [A [B C]]];
        [unfold tick_step; rewrite Ep, Z.leb_refl, Eu; reflexivity|discriminate|].
      exists w'. split; [exact A|]. split; [|reflexivity]. apply B; discriminate.
    - destruct (Go (Wake (Z.max (tk_clock k) u)) (mk_ticker (Acting nx) (Z.max (tk_clock k) u) ((Z.max (tk_clock k) u, nx) :: tk_fired k))) as [w' [A [B C]]].
      + unfold tick_step. rewrite Ep. replace (tk_clock k <=? Z.max (tk_clock k) u) with true by (symmetry; apply Z.leb_le; lia).
        replace (u <=? Z.max (tk_clock k) u) with true by (symmetry; apply Z.leb_le; lia). reflexivity.
      + discriminate.
      + exists w'. split; [|split; [|reflexivity]].
        * cbn [fleet_step]. unfold fleet_wake. rewrite A, C. cbn. reflexivity.
        * apply B; discriminate.
    - assert (V : fstep 0 w (FActed 0 (tk_clock k)) = on_tick utc upcoming show 0 0 (Acted (tk_clock k) false) w).
      { cbn [fleet_step]. unfold fleet_acted. rewrite E0. cbn zeta. unfold answers. rewrite Ea. reflexivity. }
      rewrite V. destruct (0 <? dt_diff nx (tk_clock k)) eqn:Ed.
      + destruct (Go (Acted (tk_clock k) false) (mk_ticker (Resting (tk_clock k + dt_diff nx (tk_clock k))) (tk_clock k) (tk_fired k))) as [w' [A [B C]]];
          [unfold tick_step; rewrite Ep, Z.leb_refl, Ed; reflexivity|discriminate|].
        exists w'. split; [exact A|]. split; [|reflexivity]. apply B; discriminate.
      + destruct (Go (Acted (tk_clock k) false) (mk_ticker Computing (tk_clock k) (tk_fired k))) as [w' [A [B C]]];
          [unfold tick_step; rewrite Ep, Z.leb_refl, Ed; reflexivity|discriminate|].
        exists w'. split; [exact A|]. split; [|reflexivity]. apply B; discriminate.
    - destruct (Go (Rested (Z.max (tk_clock k) u)) (mk_ticker Computing (Z.max (tk_clock k) u) (tk_fired k))) as [w' [A [B C]]].
      + unfold tick_step. rewrite Ep. replace (tk_clock k <=? Z.max (tk_clock k) u) with true by (symmetry; apply Z.leb_le; lia).
        replace (u <=? Z.max (tk_clock k) u) with true by (symmetry; apply Z.leb_le; lia). reflexivity.
      + discriminate.
      + exists w'. split; [exact A|]. split; [|reflexivity]. apply B; discriminate.
  Qed.
  Lemma driven_looping n : looping (driven n).
  Proof.
    induction n as [|n IH].
    - unfold driven, start_of. cbn. do 2 eexists. split; [reflexivity|]. cbn. split; [reflexivity|]. split; [reflexivity|]. split; [discriminate|]. split; [discriminate|]. auto.
    - cbn [driven]. destruct (drive_step _ IH) as [w' [-> [K _]]]. exact K.
  Qed.
  Lemma looping_task w : looping w -> exists k, task_of 0 w = Some (mk_task 0 0 (BPruner sc no_rules k)) /\ tk_phase k <> Stopped /\ tk_phase k <> Crashed.
  Proof.
    intros [k [s [Es [Et [Ep0 [P1 [P2 _]]]]]]]. exists k. split; [|auto]. unfold task_of. rewrite Ep0. cbn [nth_error]. rewrite Es. cbn [nth_error]. rewrite Et. reflexivity.
  Qed.
  Theorem loop_goes_on :
    fhist loop_states loop_events /\ calls_move loop_states /\ (forall i, just fstep (fleet_step_of i) loop_states loop_events)
    /\ (exists t, task_of 0 (loop_states 5) = Some t /\ nth_error (connected (first 5 loop_events)) (ta_backend t) = Some 0%nat
          /\ shut (ta_token t) (program_of 0 (first 5 loop_events)))
    /\ forall n t, task_of 0 (loop_states n) = Some t -> ~ ended t /\ ~ died t.
  Proof.
    assert (L : forall n, (5 <= n)%nat -> loop_states n = driven (n - 5) /\ loop_events n = (0, drive (driven (n - 5)))).
    { intros n L. do 5 (destruct n as [|n]; [lia|]). split; [reflexivity|]. unfold loop_events. destruct n; reflexivity. }
    split; [|split; [|split; [|split]]].
    - split; [reflexivity|]. intro n. destruct (Nat.lt_ge_cases n 5) as [Hn|Hn].
      + do 5 (destruct n as [|n]; [reflexivity|]). lia.
      + destruct (L n Hn) as [-> ->]. destruct (L (S n) ltac:(lia)) as [-> _]. cbn [fst snd]. replace (S n - 5)%nat with (S (n - 5)) by lia. cbn [driven].
        destruct (drive_step _ (driven_looping (n - 5))) as [w' [-> _]]. reflexivity.
    - intros n c x Hc. exfalso. destruct (Nat.lt_ge_cases n 5) as [Hn|Hn].
      + do 5 (destruct n as [|n]; [destruct c; discriminate Hc|]). lia.
      + rewrite (proj1 (L n Hn)) in Hc. destruct (driven_looping (n - 5)) as [k [s [_ [_ [_ [_ [_ [_ Ec]]]]]]]]. rewrite Ec in Hc. destruct c; discriminate.
    - intros i n. exists (Nat.max n 5). split; [lia|]. destruct (L (Nat.max n 5) ltac:(lia)) as [-> ->]. cbn [snd].
      pose proof (driven_looping (Nat.max n 5 - 5)) as K. destruct i as [|i].
      + left. destruct (drive_step _ K) as [w' [_ [_ D]]]. exact D.
      + right. intros [now [e [w' [Hs H]]]]. destruct (no_such_task utc upcoming show hash ident _ _ _ _ _ H Hs) as [t Ht].
        destruct K as [k [s [_ [_ [Ep _]]]]]. unfold task_of in Ht. rewrite Ep in Ht. destruct i; discriminate.
    - eexists. split; [reflexivity|]. split; [reflexivity|]. exists 0, (AShutdown 0). split; [cbn; auto|]. left. reflexivity.
    - intros n t Ht. destruct (Nat.lt_ge_cases n 5) as [Hn|Hn].
      + do 5 (destruct n as [|n]; [cbn in Ht; try discriminate; injection Ht as <-; split; discriminate|]). lia.
      + rewrite (proj1 (L n Hn)) in Ht. destruct (looping_task _ (driven_looping (n - 5))) as [k [Et [P1 P2]]]. rewrite Et in Ht. injection Ht as <-. split; assumption.
  Qed.
End Loop.
