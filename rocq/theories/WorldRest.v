(** Endless histories of programs: those in which everything has come to an end, and those of a loop
    that never sees that it has been told to stop. *)
From Coq Require Import Lia.
From Verif Require Import Base Chrono Types Query Memory MemSpec MemProofs MemHist2 MemNotify MemConc MemConcSpec MemConcProofs MemConcThms MemWake
  Codec Builder Runner RunnerSpec WorkerProofs Ticker Pruner ApiSpec ApiProofs App AppSpec AppProofs AppEnd PropsApp World WorldSpec WorldProofs WorldInv WorldThms WorldLive FairSpec WorldFair.

Section Rest.
  Context {Schedule Zone : Type}.
  Variable utc : Zone.
  Variable upcoming : Schedule -> Zone -> time -> option time.
  Variable show : Z -> string.
  Variable hash : forall e : executor, xe_data e -> Z.
  Variable p : profile.
  Notation world := (world Schedule Zone).
  Notation tsk := (task Schedule Zone).
  Notation vev := (world_event Schedule Zone).
  Notation onp := (on_process utc upcoming show).
  Notation vstep := (world_step utc upcoming show hash p).
  Notation vrun := (world_run utc upcoming show hash p).
  Notation vhist := (vhist utc upcoming show hash p).

  (** The states that events lead to. *)
  Definition states (ev : nat -> time * vev) (n : nat) : world :=
    match vrun world_init (first n ev) with Some w => w | None => world_init end.
  Lemma first_S (ev : nat -> time * vev) n : first (S n) ev = first n ev ++ [ev n].
  Proof. unfold first. rewrite seq_S, map_app. reflexivity. Qed.
  Lemma states_history ev : (forall n, vrun world_init (first n ev) <> None) -> vhist (states ev) ev.
  Proof.
    intro H. split; [reflexivity|]. intro n. unfold states. pose proof (H (S n)) as H1. rewrite first_S, vrun_app in *.
    destruct (vrun world_init (first n ev)) as [w|]; [|congruence]. cbn [world_run] in *. destruct (ev n) as [now e]. cbn [fst snd] in *.
    destruct (vstep now w e); congruence.
  Qed.

  (** * Nothing is left to do *)
  Definition over (t : tsk) : Prop := ended t \/ died t.
  Definition at_rest (w : world) : Prop :=
    (forall t, In t (pr_tasks (wd_process w)) -> over t) /\ wd_stores w <> []
    /\ forall s c, In s (wd_stores w) -> In c (c_calls s) -> exists r, cl_pc c = PcDone r.

  Lemma no_such_task now w ev w' i : vstep now w ev = Some w' -> step_of i ev -> exists t, nth_error (pr_tasks (wd_process w)) i = Some t.
  Proof.
    assert (Hw : forall e w2, onp now (AWorker i e) w = Some w2 -> exists t, nth_error (pr_tasks (wd_process w)) i = Some t).
    { intros e w2. unfold on_process. cbn [app_step]. destruct (nth_error (pr_tasks (wd_process w)) i); [eauto|discriminate]. }
    assert (Ht : forall e w2, onp now (ATick i e) w = Some w2 -> exists t, nth_error (pr_tasks (wd_process w)) i = Some t).
    { intros e w2. unfold on_process. cbn [app_step]. destruct (nth_error (pr_tasks (wd_process w)) i); [eauto|discriminate]. }
    intros H Hs. destruct ev as [|a|b o|b c|k|k|k|k n|k n now1 now2 o|k n|k|k c0 c1|k c|k|k c|k c]; cbn [step_of] in Hs; try destruct Hs; cbn [world_step] in H;
      try (eapply Hw; exact H); try (eapply Ht; exact H).
    - unfold world_end in H. destruct (onp now _ w) eqn:E; [|discriminate]. eapply Hw. exact E.
    - unfold world_answer in H. destruct (replies k n w) as [|[[| | | | |[|r| |]]|] [|]]; try discriminate. eapply Hw. exact H.
    - unfold world_wake in H. destruct (onp now _ w) eqn:E; [|discriminate]. eapply Ht. exact E.
    - unfold world_acted in H. destruct (nth_error (pr_tasks (wd_process w)) k); [eauto|discriminate].
  Qed.
  Lemma rest_still w i : at_rest w -> ~ possible vstep (step_of i) w.
  Proof.
    intros [R _] [now [ev [w' [Hs H]]]]. destruct (no_such_task _ _ _ _ _ H Hs) as [t Ht].
    destruct (step_becomes _ _ _ _ _ _ _ _ _ _ _ H Ht) as [t' [_ [[B _]|[[a [B _]]|[a [B _]]]]]]; [exact (B Hs)| |].
    - specialize (R t (nth_error_In _ _ Ht)). unfold over, ended, died, worker_task_step in *. destruct (ta_body t) as [e wk| |]; [|destruct a; discriminate..].
      assert (E : forall l, worker_step (xe_codec e) (xe_fns e) show l wk a = None) by (intros; unfold worker_step; destruct R as [-> | ->]; reflexivity).
      rewrite E in B. destruct a; discriminate.
    - specialize (R t (nth_error_In _ _ Ht)). unfold over, ended, died, tick_task_step in *.
      assert (E : forall up k, tk_phase k = Stopped \/ tk_phase k = Crashed -> tick_step up k a = None) by (intros up k [E|E]; unfold tick_step; rewrite E; reflexivity).
      destruct (ta_body t) as [e wk|e sc z d k|sc cfg k]; [|rewrite (E _ _ R) in B|rewrite (E _ _ R) in B];
        destruct a; try discriminate; match type of B with match ?x with _ => _ end = _ => destruct x end; discriminate.
  Qed.
  (** A call that has returned can be asked again and again. *)
  Lemma rest_goes now w : at_rest w -> exists w', vstep now w (VRun 0 0) = Some w' /\ at_rest w'.
  Proof.
    intros [R1 [R2 R3]]. cbn [world_step]. unfold on_store. destruct (wd_stores w) as [|s l] eqn:Es; [congruence|]. cbn [nth_error].
    eexists. split; [reflexivity|]. split; [exact R1|]. split; [cbn; discriminate|]. cbn [wd_stores set_nth]. intros s' c [<-|Hs] Hc.
    - pose proof (R3 s) as R. cbn [conc_step] in Hc. destruct (nth_error (c_calls s) 0) as [c0|] eqn:E0; [|cbn in Hc; apply (R c); [left; reflexivity|exact Hc]].
      destruct (R c0 (or_introl eq_refl) (nth_error_In _ _ E0)) as [r Er].
      pose proof (done_stays p s (LRun 0 now) 0 c0 r E0 Er) as K. cbn [conc_step] in K. rewrite E0 in K.
      destruct (call_step p 0 now (c_mem s) c0) as [[m' c'] evs]. cbn [fst c_calls] in *.
      rewrite (nth_set_same _ _ _ _ E0) in K. injection K as ->. apply in_set_nth in Hc. destruct Hc as [->|Hc]; [eauto|]. apply (R c); [left; reflexivity|exact Hc].
    - apply (R3 s' c); [right; exact Hs|exact Hc].
  Qed.

  Definition then_rest (T : time) (es : list (time * vev)) (n : nat) : time * vev := nth n es (T, VRun 0 0).
  Lemma then_first T es n : first n (then_rest T es) = firstn n es ++ repeat (T, VRun 0 0) (n - length es).
  Proof using.
    clear utc upcoming show hash p. induction n as [|n IH]; [reflexivity|]. rewrite first_S, IH. unfold then_rest. destruct (Nat.lt_ge_cases n (length es)) as [L|L].
    - replace (n - length es)%nat with 0%nat by lia. replace (S n - length es)%nat with 0%nat by lia. cbn [repeat]. rewrite !app_nil_r.
      clear IH. revert n L. induction es as [|x es IHe]; intros n L; [cbn in L; lia|]. destruct n as [|n]; [reflexivity|].
      cbn [firstn nth app]. f_equal. apply IHe. cbn in L. lia.
    - rewrite nth_overflow by exact L. rewrite !firstn_all2 by lia. rewrite <- app_assoc. f_equal.
      replace (S n - length es)%nat with (S (n - length es)) by lia. rewrite <- repeat_cons. reflexivity.
  Qed.
  Lemma rest_run T w : at_rest w -> forall n, exists w', vrun w (repeat (T, VRun 0 0) n) = Some w' /\ at_rest w'.
  Proof.
    intros R n. revert w R. induction n as [|n IH]; intros w R; [exists w; auto|]. destruct (rest_goes T w R) as [w1 [H1 R1]]. cbn [repeat world_run]. rewrite H1. apply IH, R1.
  Qed.
  Theorem rest_history T es w : vrun world_init es = Some w -> at_rest w ->
    let ev := then_rest T es in
    vhist (states ev) ev /\ calls_go_on (states ev) ev /\ (forall i, just vstep (step_of i) (states ev) ev) /\ (forall i n, just vstep (step_with i n) (states ev) ev)
    /\ (forall i, compassionate vstep (eq (VLeave i)) (states ev) ev) /\ states ev (length es) = w.
  Proof.
    intros H R ev.
    assert (Run : forall n, (length es <= n)%nat -> at_rest (states ev n)).
    { intros n L. unfold states, ev. rewrite then_first, firstn_all2 by exact L. rewrite vrun_app, H.
      destruct (rest_run T w R (n - length es)) as [w' [E R']]. rewrite E. exact R'. }
    assert (Hh : vhist (states ev) ev).
    { apply states_history. intro n. unfold ev. rewrite then_first, vrun_app. destruct (Nat.lt_ge_cases n (length es)) as [L|L].
      - replace (n - length es)%nat with 0%nat by lia. cbn [repeat].
        rewrite <- (firstn_skipn n es), vrun_app in H. destruct (vrun world_init (firstn n es)); [cbn; discriminate|discriminate].
      - rewrite firstn_all2 by exact L. rewrite H. destruct (rest_run T w R (n - length es)) as [w' [E _]]. rewrite E. discriminate. }
    split; [exact Hh|]. split.
    - intros n b s c x Hs Hc. exists (Nat.max n (length es)). split; [lia|]. right.
      destruct (proj2 (vgrown utc upcoming show hash p _ _ Hh n (Nat.max n (length es)) ltac:(lia)) b s Hs) as [s' [Hs' K]].
      destruct (K c x Hc (calls_ok utc upcoming show hash p _ _ _ _ _ _ (vreach utc upcoming show hash p _ _ Hh n) Hs Hc)) as [x' [Hc' _]].
      destruct (proj2 (proj2 (Run (Nat.max n (length es)) ltac:(lia))) s' x' (nth_error_In _ _ Hs') (nth_error_In _ _ Hc')) as [r Hr]. exists s', x', r. auto.
    - assert (J : forall (P : vev -> Prop) i, (forall e, P e -> step_of i e) -> forall n, exists m, (n <= m)%nat /\ forall m', (m <= m')%nat -> ~ possible vstep P (states ev m')).
      { intros P i HP n. exists (Nat.max n (length es)). split; [lia|]. intros m' L [now [e [w' [Hp Hs]]]].
        apply (rest_still (states ev m') i); [apply Run; lia|]. exists now, e, w'. auto. }
      split; [|split; [|split]].
      + intros i n. destruct (J (step_of i) i (fun e K => K) n) as [m [L K]]. exists m. split; [exact L|]. right. apply K. lia.
      + intros i q n. destruct (J (step_with i q) i (with_of i q) n) as [m [L K]]. exists m. split; [exact L|]. right. apply K. lia.
      + intros i n. destruct (J (eq (VLeave i)) i) with (n := n) as [m [L K]]; [intros e <-; reflexivity|]. exists m. split; [exact L|]. right. exact K.
      + unfold states, ev. rewrite then_first, firstn_all, Nat.sub_diag. cbn [repeat]. rewrite app_nil_r, H. reflexivity.
  Qed.
End Rest.

(** * A loop that goes on after it has been told to stop *)
Section Loop.
  Context {Schedule Zone : Type}.
  Variable utc : Zone.
  Variable upcoming : Schedule -> Zone -> time -> option time.
  Variable show : Z -> string.
  Variable hash : forall e : executor, xe_data e -> Z.
  Variable p : profile.
  Variable sc : Schedule.
  Hypothesis more : forall c, upcoming sc utc c <> None.
  Notation world := (world Schedule Zone).
  Notation vev := (world_event Schedule Zone).
  Notation onp := (on_process utc upcoming show).
  Notation vstep := (world_step utc upcoming show hash p).
  Notation vrun := (world_run utc upcoming show hash p).
  Notation vhist := (vhist utc upcoming show hash p).

  Definition no_rules : pruner_config := mk_config None [].
  Definition told_loop : list (time * vev) := [(0, VStore); (0, VApp (ANew 0)); (0, VApp (APruner 0 sc no_rules)); (0, VApp (AShutdown 0))].
  (** The loop never looks at its token. *)
  Definition drive (w : world) : vev :=
    match pr_tasks (wd_process w) with
    | [t] =>
        match ta_body t with
        | BPruner _ _ k =>
            match tk_phase k with
            | Computing => VCompute 0 (tk_clock k) (tk_clock k)
            | Sleeping _ u => VWake 0 (Z.max (tk_clock k) u)
            | Acting _ => VActed 0 (tk_clock k)
            | Resting u => VRested 0 (Z.max (tk_clock k) u)
            | _ => VStore
            end
        | _ => VStore
        end
    | _ => VStore
    end.
  Definition start_of (n : nat) : world := match vrun world_init (firstn n told_loop) with Some w => w | None => world_init end.
  Fixpoint driven (n : nat) : world :=
    match n with
    | O => start_of 4
    | S n => match vstep 0 (driven n) (drive (driven n)) with Some w => w | None => driven n end
    end.
  Definition loop_states (n : nat) : world := match n with 0 | 1 | 2 | 3 => start_of n | _ => driven (n - 4) end%nat.
  Definition loop_events (n : nat) : time * vev := nth n told_loop (0, drive (driven (n - 4))).

  Definition looping (w : world) : Prop :=
    exists k, pr_tasks (wd_process w) = [mk_task 0 0 (BPruner sc no_rules k)] /\ tk_phase k <> Stopped /\ tk_phase k <> Crashed
      /\ wd_asks w = [] /\ wd_stores w = [c_init].
  Lemma drive_step w : looping w -> exists w', vstep 0 w (drive w) = Some w' /\ looping w' /\ step_of 0 (drive w).
  Proof.
    intros [k [Et [P1 [P2 [Ea Es]]]]]. unfold drive. rewrite Et. cbn [ta_body].
    assert (Go : forall a k', tick_step (upcoming sc utc) k a = Some k' -> a <> Cancel ->
              exists w', onp 0 (ATick 0 a) w = Some w' /\ pr_tasks (wd_process w') = [mk_task 0 0 (BPruner sc no_rules k')] /\ wd_asks w' = [] /\ wd_stores w' = [c_init]).
    { intros a k' Hs Ha. unfold on_process. cbn [app_step]. rewrite Et. cbn [nth_error]. unfold tick_task_step. cbn [ta_body ta_backend ta_token]. rewrite Hs.
      destruct a; try congruence; (eexists; split; [reflexivity|]); cbn; rewrite ?Et, ?Ea, ?Es; auto. }
    destruct (tk_phase k) as [|nx u|nx|u| |] eqn:Ep; try congruence.
    - destruct (upcoming sc utc (tk_clock k)) as [nx|] eqn:Eu; [|destruct (more _ Eu)].
      destruct (Go (Compute (tk_clock k) (tk_clock k)) (mk_ticker (Sleeping nx (tk_clock k + tick_delay nx (tk_clock k))) (tk_clock k) (tk_fired k))) as [w' [A [B [C D]]]];
        [unfold tick_step; rewrite Ep, Z.leb_refl, Eu; reflexivity|discriminate|].
      exists w'. split; [exact A|]. split; [|reflexivity]. eexists. split; [exact B|]. cbn. split; [discriminate|]. split; [discriminate|]. auto.
    - destruct (Go (Wake (Z.max (tk_clock k) u)) (mk_ticker (Acting nx) (Z.max (tk_clock k) u) ((Z.max (tk_clock k) u, nx) :: tk_fired k))) as [w' [A [B [C D]]]].
      + unfold tick_step. rewrite Ep. replace (tk_clock k <=? Z.max (tk_clock k) u) with true by (symmetry; apply Z.leb_le; lia).
        replace (u <=? Z.max (tk_clock k) u) with true by (symmetry; apply Z.leb_le; lia). reflexivity.
      + discriminate.
      + exists w'. split; [|split; [|reflexivity]].
        * cbn [world_step]. unfold world_wake. rewrite A, B. cbn. reflexivity.
        * eexists. split; [exact B|]. cbn. split; [discriminate|]. split; [discriminate|]. auto.
    - assert (V : vstep 0 w (VActed 0 (tk_clock k)) = onp 0 (ATick 0 (Acted (tk_clock k) false)) w).
      { cbn [world_step]. unfold world_acted. rewrite Et. cbn [nth_error]. cbn zeta. rewrite replies_at, Ea. reflexivity. }
      rewrite V. destruct (0 <? dt_diff nx (tk_clock k)) eqn:Ed.
      + destruct (Go (Acted (tk_clock k) false) (mk_ticker (Resting (tk_clock k + dt_diff nx (tk_clock k))) (tk_clock k) (tk_fired k))) as [w' [A [B [C D]]]];
          [unfold tick_step; rewrite Ep, Z.leb_refl, Ed; reflexivity|discriminate|].
        exists w'. split; [exact A|]. split; [|reflexivity]. eexists. split; [exact B|]. cbn. split; [discriminate|]. split; [discriminate|]. auto.
      + destruct (Go (Acted (tk_clock k) false) (mk_ticker Computing (tk_clock k) (tk_fired k))) as [w' [A [B [C D]]]];
          [unfold tick_step; rewrite Ep, Z.leb_refl, Ed; reflexivity|discriminate|].
        exists w'. split; [exact A|]. split; [|reflexivity]. eexists. split; [exact B|]. cbn. split; [discriminate|]. split; [discriminate|]. auto.
    - destruct (Go (Rested (Z.max (tk_clock k) u)) (mk_ticker Computing (Z.max (tk_clock k) u) (tk_fired k))) as [w' [A [B [C D]]]].
      + unfold tick_step. rewrite Ep. replace (tk_clock k <=? Z.max (tk_clock k) u) with true by (symmetry; apply Z.leb_le; lia).
        replace (u <=? Z.max (tk_clock k) u) with true by (symmetry; apply Z.leb_le; lia). reflexivity.
      + discriminate.
      + exists w'. split; [exact A|]. split; [|reflexivity]. eexists. split; [exact B|]. cbn. split; [discriminate|]. split; [discriminate|]. auto.
  Qed.
  Lemma driven_looping n : looping (driven n).
  Proof.
    induction n as [|n IH].
    - unfold driven, start_of. cbn. eexists. split; [reflexivity|]. cbn. split; [discriminate|]. split; [discriminate|]. auto.
    - cbn [driven]. destruct (drive_step _ IH) as [w' [-> [K _]]]. exact K.
  Qed.
  Theorem loop_goes_on :
    vhist loop_states loop_events /\ calls_go_on loop_states loop_events /\ (forall i, just vstep (step_of i) loop_states loop_events)
    /\ (exists t, nth_error (pr_tasks (wd_process (loop_states 4))) 0 = Some t /\ shut (ta_token t) (program (first 4 loop_events)) /\ limits_ok t)
    /\ forall n t, nth_error (pr_tasks (wd_process (loop_states n))) 0 = Some t -> ~ ended t /\ ~ died t.
  Proof.
    assert (L : forall n, (4 <= n)%nat -> loop_states n = driven (n - 4) /\ loop_events n = (0, drive (driven (n - 4)))).
    { intros n L. do 4 (destruct n as [|n]; [lia|]). split; [reflexivity|]. unfold loop_events. destruct n; reflexivity. }
    split; [|split; [|split; [|split]]].
    - split; [reflexivity|]. intro n. destruct (Nat.lt_ge_cases n 4) as [Hn|Hn].
      + do 4 (destruct n as [|n]; [reflexivity|]). lia.
      + destruct (L n Hn) as [-> ->]. destruct (L (S n) ltac:(lia)) as [-> _]. cbn [fst snd]. replace (S n - 4)%nat with (S (n - 4)) by lia. cbn [driven].
        destruct (drive_step _ (driven_looping (n - 4))) as [w' [-> _]]. reflexivity.
    - intros n b s c x Hs Hc. exfalso. destruct (Nat.lt_ge_cases n 4) as [Hn|Hn].
      + do 4 (destruct n as [|n]; [cbn in Hs; repeat (destruct b as [|b]; [cbn in Hs; try discriminate; injection Hs as <-; destruct c; discriminate|cbn in Hs]); destruct b; discriminate|]). lia.
      + rewrite (proj1 (L n Hn)) in Hs. destruct (driven_looping (n - 4)) as [k [_ [_ [_ [_ Es]]]]]. rewrite Es in Hs. destruct b as [|b]; [injection Hs as <-; destruct c; discriminate|destruct b; discriminate].
    - intros i n. exists (Nat.max n 4). split; [lia|]. destruct (L (Nat.max n 4) ltac:(lia)) as [-> ->]. cbn [snd].
      pose proof (driven_looping (Nat.max n 4 - 4)) as K. destruct i as [|i].
      + left. destruct (drive_step _ K) as [w' [_ [_ D]]]. exact D.
      + right. intros [now [e [w' [Hs H]]]]. destruct (no_such_task utc upcoming show hash p _ _ _ _ _ H Hs) as [t Ht].
        destruct K as [k [Et _]]. rewrite Et in Ht. destruct i; discriminate.
    - eexists. split; [reflexivity|]. split.
      + exists 0, (AShutdown 0). split; [cbn; auto|]. left. reflexivity.
      + intros e l H. discriminate.
    - intros n t Ht. destruct (Nat.lt_ge_cases n 4) as [Hn|Hn].
      + do 4 (destruct n as [|n]; [cbn in Ht; try discriminate; injection Ht as <-; split; discriminate|]). lia.
      + rewrite (proj1 (L n Hn)) in Ht. destruct (driven_looping (n - 4)) as [k [Et [P1 [P2 _]]]]. rewrite Et in Ht. injection Ht as <-. split; assumption.
  Qed.
End Loop.
