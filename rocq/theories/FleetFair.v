(** Lemmas about what must happen in processes that share a Postgres database. *)
From Coq Require Import Lia Permutation.
From Verif Require Import Base Chrono Types Query Memory MemSpec MemConc MemWake PgRow PgQuery Pg PgConc PgConcSpec PgConcPast PgConcProofs PgConcEnd PgConcLive
  PgListen PgListenProofs Codec Builder Runner RunnerSpec WorkerProofs Ticker Pruner ApiSpec ApiProofs PropsApi App AppSpec AppProofs AppEnd PropsApp
  World WorldSpec WorldProofs WorldInv WorldThms WorldLive WorldFair Fleet FleetSpec FleetLink FleetInv FleetThms FleetLive FairSpec.

(** * Calls *)

(** How many actions a call that has begun can still take. *)
Definition actions_left (pc : qpc) : nat :=
  match pc with
  | QStart => 0
  | QBegun _ => 5
  | QAlone _ => 4
  | QFree _ | QFound _ _ => 3
  | QDrawn _ _ | QReplacing _ _ => 2
  | QScan _ ids => 2 + length ids
  | QHeld _ _ => 1
  | QDooming _ _ rest => 1 + length rest
  | QDone _ => 0
  end.
Definition nearer (pc pc' : qpc) : Prop := pc' <> QStart /\ (pc = QStart \/ (actions_left pc' < actions_left pc)%nat \/ exists r r', pc = QDone r /\ pc' = QDone r').
Lemma nearer_done pc r : nearer pc (QDone r).
Proof.
  split; [discriminate|]. destruct pc; cbn; [auto|..]; try (right; left; lia). right. right. eauto.
Qed.
Lemma action_nearer ident i now pick cs t c t' pc' ev : PgConc.action ident i now pick cs t c = (t', pc', ev) -> pc' = qc_pc c \/ nearer (qc_pc c) pc'.
Proof.
  unfold PgConc.action. intro H.
  assert (Hrow : forall o id, row_action ident i now cs t o id (qc_pc c) = (t', pc', ev) -> pc' = qc_pc c \/ nearer (qc_pc c) pc').
  { intros o id K. unfold row_action in K. destruct (qc_pc c); try (injection K as <- <- <-; auto; fail).
    - destruct (find_row id (t_rows t)); injection K as <- <- <-; [|right; apply nearer_done]. destruct (row_locked cs id); [auto|]. right. split; [discriminate|auto].
    - destruct (pg_step ident now0 t o) as [t1 r]. injection K as <- <- <-. right. apply nearer_done. }
  destruct (qc_op c) as [e|ex|id|id tm er|id er|id er|id tm|ps|id|j|q|ex| |] eqn:Eo; cbn [target] in H; try (eapply Hrow; exact H).
  - destruct (eq_criteria e) as [uq|].
    + unfold unique_action in H. destruct (qc_pc c) as [|n ids|n id|n|n|n|n id|n id|n id|n tk rs|r]; try (injection H as <- <- <-; auto; fail).
      * injection H as <- <- <-. right. split; [discriminate|auto].
      * injection H as <- <- <-. destruct (advisory_held _ _ _); [auto|]. right. split; [discriminate|]. right. left. cbn. lia.
      * destruct (pg_window uq (eq_scheduled_at e)); [|injection H as <- <- <-; right; apply nearer_done].
        destruct (negb _); [injection H as <- <- <-; right; apply nearer_done|].
        destruct (nth_error _ _) as [r|]; injection H as <- <- <-; right; [|split; [discriminate|right; left; cbn; lia]].
        destruct (uc_on_conflict uq); [apply nearer_done|]. destruct (existsb _ _); [|apply nearer_done]. split; [discriminate|right; left; cbn; lia].
      * unfold draw in H. right. repeat match type of H with context [if ?x then _ else _] => destruct x end; injection H as <- <- <-; try apply nearer_done.
        split; [discriminate|right; left; cbn; lia].
      * destruct (find_row id (t_rows t)).
        -- injection H as <- <- <-. destruct (row_locked cs id); [auto|]. right. split; [discriminate|right; left; cbn; lia].
        -- destruct (uc_on_conflict uq); [injection H as <- <- <-; auto|]. unfold commit_replace in H. destruct (pg_replace _ _ _ _); injection H as <- <- <-; right; apply nearer_done.
      * destruct (uc_on_conflict uq); [injection H as <- <- <-; auto|]. unfold commit_replace in H. destruct (pg_replace _ _ _ _); injection H as <- <- <-; right; apply nearer_done.
      * unfold commit_insert in H. injection H as <- <- <-. right. apply nearer_done.
    + unfold insert_action in H. destruct (qc_pc c) as [|n ids|n id|n|n|n|n id|n id|n id|n tk rs|r]; try (injection H as <- <- <-; auto; fail).
      * unfold draw in H. right. repeat match type of H with context [if ?x then _ else _] => destruct x end; injection H as <- <- <-; try apply nearer_done.
        split; [discriminate|auto].
      * unfold commit_insert in H. injection H as <- <- <-. right. apply nearer_done.
  - unfold load_action in H. destruct (qc_pc c) as [|n ids|n id|n|n|n|n id|n id|n id|n tk rs|r]; try (injection H as <- <- <-; auto; fail).
    + destruct (negb _); injection H as <- <- <-; right; [apply nearer_done|]. split; [discriminate|auto].
    + destruct ids as [|id rest]; [injection H as <- <- <-; right; apply nearer_done|]. injection H as <- <- <-. right.
      assert (K1 : nearer (QScan n (id :: rest)) (QScan n rest)) by (split; [discriminate|right; left; cbn; lia]).
      destruct (row_locked cs id); [exact K1|]. destruct (find_row id (t_rows t)); [|exact K1]. destruct (pg_ready n ex r); [|exact K1]. split; [discriminate|right; left; cbn; lia].
    + right. destruct (find_row id (t_rows t)); [|injection H as <- <- <-; apply nearer_done].
      destruct (update_rows _ _ _) as [[l u]|]; [destruct (pg_take n r)|]; injection H as <- <- <-; apply nearer_done.
  - unfold prune_action in H. destruct (qc_pc c) as [|n ids|n id|n|n|n|n id|n id|n id|n tk rs|r]; try (injection H as <- <- <-; auto; fail).
    + right. destruct (pg_doomed now ps (t_rows t)) as [[ids|]|]; [destruct (pg_spec_ok _)|..]; injection H as <- <- <-; try apply nearer_done. split; [discriminate|auto].
    + destruct rs as [|id rest]; [injection H as <- <- <-; right; apply nearer_done|]. injection H as <- <- <-.
      destruct (find_row id (t_rows t)); [destruct (row_locked cs id); [auto|]|]; right; (split; [discriminate|right; left; cbn; lia]).
  - destruct (qc_pc c); injection H as <- <- <-; auto. right. apply nearer_done.
  - destruct (qc_pc c); injection H as <- <- <-; auto. right. apply nearer_done.
  - destruct (qc_pc c); injection H as <- <- <-; auto. right. apply nearer_done.
  - destruct (qc_pc c); injection H as <- <- <-; auto. right. apply nearer_done.
Qed.

(** A call stays where it is or comes nearer to its return. *)
Definition onward (x x' : qcall) : Prop := qc_op x' = qc_op x /\ (x' = x \/ nearer (qc_pc x) (qc_pc x')).
Lemma onward_refl x : onward x x. Proof. split; auto. Qed.
Lemma nearer_trans a b c : nearer a b -> nearer b c -> nearer a c.
Proof.
  intros [A1 A2] [B1 B2]. split; [exact B1|]. destruct A2 as [A2|[A2|[r [r' [A2 A3]]]]]; [auto|..].
  - right. destruct B2 as [B2|[B2|[s [s' [B2 B3]]]]]; [contradiction|left; lia|]. subst. left. cbn in A2 |- *. lia.
  - subst. destruct B2 as [B2|[B2|[s [s' [B2 B3]]]]]; [discriminate|cbn in B2; lia|]. subst. right. right. eauto.
Qed.
Lemma onward_trans a b c : onward a b -> onward b c -> onward a c.
Proof.
  intros [A1 A2] [B1 B2]. split; [congruence|]. destruct A2 as [->|A2]; [exact B2|]. destruct B2 as [->|B2]; [right; exact A2|]. right. eapply nearer_trans; eassumption.
Qed.
Section Onward.
  Variable ident : option Z -> option string -> list status -> Z.
  Lemma q_onward s l c x : nth_error (q_calls s) c = Some x -> exists x', nth_error (q_calls (fst (qstep ident s l))) c = Some x' /\ onward x x'.
  Proof.
    intro H. destruct l as [o|i now pick|i e]; cbn [qstep].
    - exists x. cbn. rewrite nth_error_app1 by (apply nth_error_Some; congruence). split; [exact H|apply onward_refl].
    - destruct (nth_error (q_calls s) i) as [d|] eqn:Ei; [|exists x; split; [exact H|apply onward_refl]].
      destruct (PgConc.action ident i now pick (q_calls s) (q_tbl s) d) as [[t' pc'] ev] eqn:Ea. cbn [fst q_calls].
      destruct (Nat.eq_dec i c) as [->|Hne].
      + assert (d = x) as -> by congruence. eexists. split; [exact (nth_set_same _ _ _ _ H)|]. split; [reflexivity|]. cbn [qc_pc].
        destruct (action_nearer _ _ _ _ _ _ _ _ _ _ Ea) as [->|K]; [left; destruct x; reflexivity|right; exact K].
      + exists x. rewrite nth_set_nth_other by congruence. split; [exact H|apply onward_refl].
    - destruct (nth_error (q_calls s) i) as [d|] eqn:Ei; [|exists x; split; [exact H|apply onward_refl]]. cbn [fst q_calls].
      destruct (Nat.eq_dec i c) as [->|Hne].
      + assert (d = x) as -> by congruence. eexists. split; [exact (nth_set_same _ _ _ _ H)|]. split; [reflexivity|]. right. apply nearer_done.
      + exists x. rewrite nth_set_nth_other by congruence. split; [exact H|apply onward_refl].
  Qed.
  Lemma run_onward ls : forall s c x, nth_error (q_calls s) c = Some x -> exists x', nth_error (q_calls (qrun ident s ls)) c = Some x' /\ onward x x'.
  Proof.
    induction ls as [|l ls IH]; intros s c x H; [exists x; split; [exact H|apply onward_refl]|]. cbn [qrun].
    destruct (q_onward s l c x H) as [x1 [H1 O1]]. destruct (IH _ c x1 H1) as [x2 [H2 O2]]. exists x2. split; [exact H2|eapply onward_trans; eassumption].
  Qed.
  Lemma net_onward s l c x : nth_error (q_calls (n_db s)) c = Some x -> exists x', nth_error (q_calls (n_db (fst (nstep ident s l)))) c = Some x' /\ onward x x'.
  Proof. intro H. destruct (db_step_label ident s l) as [qs [-> _]]. apply run_onward, H. Qed.
End Onward.

Section Fair.
  Context {Schedule Zone : Type}.
  Variable utc : Zone.
  Variable upcoming : Schedule -> Zone -> time -> option time.
  Variable show : Z -> string.
  Variable hash : forall e : executor, xe_data e -> Z.
  Variable ident : option Z -> option string -> list status -> Z.
  Variable t0 : tbl.
  Hypothesis Hsound : sound_table t0.
  Notation fleet := (fleet Schedule Zone).
  Notation tsk := (task Schedule Zone).
  Notation fev := (fleet_event Schedule Zone).
  Notation onn := (on_node utc upcoming show).
  Notation net := (on_net (Schedule := Schedule) (Zone := Zone) ident).
  Notation fstep := (fleet_step utc upcoming show hash ident).
  Notation frun := (fleet_run utc upcoming show hash ident).
  Notation wstep e := (worker_step (xe_codec e) (xe_fns e) show (ex_max_concurrency (xe_consts e))).
  Notation fcalls w := (q_calls (n_db (fl_net w))).

  (** * One step *)
  Definition fworker_does (g : nat) (ev : fev) (e : worker_event) : Prop :=
    match ev, e with
    | (FPoll k | FError k), WTake _ => k = g
    | FClose k, WClose => k = g
    | FStart k n, WStart n' => k = g /\ n' = n
    | FEnd k n now1 now2 o, WEnd n' now1' now2' o' => k = g /\ n' = n /\ now1' = now1 /\ now2' = now2 /\ o' = o
    | FAnswer k n, WReported n' _ => k = g /\ n' = n
    | FFinish k, WFinish => k = g
    | _, _ => False
    end.
  Definition floop_does (g : nat) (ev : fev) (e : tick_event) : Prop :=
    match ev, e with
    | FCompute k _ _, Compute _ _ | FWake k _, Wake _ | FLeave k, Cancel | FActed k _, Acted _ _ | FRested k _, Rested _ => k = g
    | _, _ => False
    end.
  (** What a step makes of task [g]. *)
  Definition fbecomes (g : nat) (w : fleet) (ev : fev) (t t' : tsk) : Prop :=
    (~ fleet_step_of g ev /\ (t' = t \/ t' = App.told show (ta_token t) t))
    \/ (exists e, worker_task_step show t e = Some t' /\ fworker_does g ev e)
    \/ (exists e, tick_task_step utc upcoming (stopped g w) t e = Some t' /\ floop_does g ev e).

  Lemma onn_becomes now q a (w w' : fleet) g t : onn now q a w = Some w' -> task_of g w = Some t ->
    exists t', task_of g w' = Some t'
      /\ (((t' = t \/ t' = App.told show (ta_token t) t) /\ forall i, nth_error (fl_places w) g = Some (q, i) -> (forall e, a <> AWorker i e) /\ (forall e, a <> ATick i e))
          \/ (exists i e, nth_error (fl_places w) g = Some (q, i) /\ a = AWorker i e /\ worker_task_step show t e = Some t')
          \/ (exists i e, nth_error (fl_places w) g = Some (q, i) /\ a = ATick i e /\ tick_task_step utc upcoming (stopped g w) t e = Some t')).
  Proof.
    unfold on_node. destruct (nth_error (fl_nodes w) q) as [s|] eqn:Eq; [|discriminate].
    destruct (app_step utc upcoming show now s a) as [[s' r]|] eqn:E; [|discriminate]. intro H. injection H as <-. intro Ht.
    destruct (task_where g w t Ht) as [q1 [i [s1 [Hg [Hq1 Hi]]]]]. unfold task_of. cbn [fl_places fl_nodes]. rewrite Hg.
    destruct (Nat.eq_dec q1 q) as [->|Hq].
    2: { exists t. rewrite nth_set_nth_other by congruence. rewrite Hq1. split; [exact Hi|]. left. split; [auto|]. intros i' K. congruence. }
    assert (s1 = s) as -> by congruence. rewrite (nth_set_same _ _ _ _ Eq).
    assert (St : stopped g w = token_cancelled t s) by (unfold stopped; rewrite Hg, Eq, Hi; reflexivity).
    destruct a as [b|h|h e|h e sc d|h e sc d z|h sc cfg|h|h|h|h|k e|k e].
    11: { cbn [app_step] in E. destruct (nth_error (pr_tasks s) k) as [tk|] eqn:Ek; [|discriminate].
      destruct (worker_task_step show tk e) as [tk'|] eqn:Es; [|discriminate]. cbn [put_task] in E. injection E as <- <-. cbn [pr_tasks].
      destruct (Nat.eq_dec k i) as [->|Hne].
      - assert (tk = t) as -> by congruence. exists tk'. split; [exact (nth_set_same _ _ _ _ Ek)|]. right. left. exists i, e. auto.
      - exists t. rewrite nth_set_nth_other by congruence. split; [exact Hi|]. left. split; [auto|]. intros i' K. injection K as <-. split; congruence. }
    11: { cbn [app_step] in E. destruct (nth_error (pr_tasks s) k) as [tk|] eqn:Ek; [|discriminate].
      destruct (tick_task_step utc upcoming (token_cancelled tk s) tk e) as [tk'|] eqn:Es; [|discriminate]. cbn [put_task] in E. injection E as <- <-. cbn [pr_tasks].
      destruct (Nat.eq_dec k i) as [->|Hne].
      - assert (tk = t) as -> by congruence. exists tk'. split; [exact (nth_set_same _ _ _ _ Ek)|]. right. right. exists i, e. rewrite St. auto.
      - exists t. rewrite nth_set_nth_other by congruence. split; [exact Hi|]. left. split; [auto|]. intros i' K. injection K as <-. split; congruence. }
    all: destruct (step_task utc upcoming show _ _ _ _ _ _ _ E Hi) as [t' [H1 H2]]; exists t'; (split; [exact H1|]); left;
      (split; [|split; discriminate]); destruct H2 as [->|[[_ ->]|[[e' [H2 _]]|[e' [H2 _]]]]]; auto; discriminate.
  Qed.

  (** The processes and the places are the same, but for new places. *)
  Definition same_tasks (w w' : fleet) : Prop := fl_nodes w' = fl_nodes w /\ exists l, fl_places w' = fl_places w ++ l.
  Lemma same_refl w w' : fl_nodes w' = fl_nodes w -> fl_places w' = fl_places w -> same_tasks w w'.
  Proof. intros A B. split; [exact A|]. exists []. rewrite app_nil_r. exact B. Qed.
  Lemma same_task w w' g t : same_tasks w w' -> task_of g w = Some t -> task_of g w' = Some t.
  Proof. intros [A B] H. eapply task_of_more; eassumption. Qed.
  Lemma asks_same now g n : forall l (w : fleet), same_tasks w (fold_left (fun w o => fleet_ask ident now g n o w) l w).
  Proof.
    induction l as [|o l IH]; intro w; [now apply same_refl|]. cbn [fold_left]. destruct (IH (fleet_ask ident now g n o w)) as [A [l' B]].
    split; [rewrite A; reflexivity|]. exists l'. rewrite B. reflexivity.
  Qed.
  Lemma enlist_same now q : forall l i (w : fleet), same_tasks w (enlist_all ident now q i l w).
  Proof.
    induction l as [|t l IH]; intros i w; [now apply same_refl|]. cbn [enlist_all]. destruct (IH (S i) (enlist ident now q i t w)) as [A [l' B]].
    split; [rewrite A; unfold enlist; destruct (ta_body t); reflexivity|]. exists ((q, i) :: l'). rewrite B. unfold enlist. destruct (ta_body t); cbn [fl_places on_net]; rewrite <- app_assoc; reflexivity.
  Qed.

  Lemma fstep_becomes now w ev w' g t : fstep now w ev = Some w' -> NoDup (fl_places w) -> task_of g w = Some t ->
    exists t', task_of g w' = Some t' /\ fbecomes g w ev t t'.
  Proof.
    intros H Hnd Ht.
    assert (Huniq : forall k x, nth_error (fl_places w) g = Some x -> nth_error (fl_places w) k = Some x -> k = g).
    { intros k x H1 H2. apply (proj1 (NoDup_nth_error (fl_places w)) Hnd); [eapply nth_lt; exact H2|congruence]. }
    assert (Hsame : same_tasks w w' -> ~ fleet_step_of g ev -> exists t', task_of g w' = Some t' /\ fbecomes g w ev t t').
    { intros E Hn. exists t. split; [eapply same_task; eassumption|]. left. auto. }
    assert (Hnet : forall l, ~ fleet_step_of g ev -> w' = net now l w -> exists t', task_of g w' = Some t' /\ fbecomes g w ev t t').
    { intros l Hn ->. apply Hsame; [now apply same_refl|exact Hn]. }
    assert (Hstop : forall w1, fl_nodes w1 = fl_nodes w -> fl_places w1 = fl_places w -> stopped g w1 = stopped g w /\ task_of g w1 = task_of g w).
    { intros w1 E1 E2. unfold stopped, task_of. rewrite E1, E2. auto. }
    assert (Hw : forall k e w1 w2, on_worker utc upcoming show now k e w1 = Some w2 -> fl_nodes w1 = fl_nodes w -> fl_places w1 = fl_places w -> same_tasks w2 w' ->
              (fleet_step_of g ev -> k = g) -> (k = g -> fworker_does g ev e) -> exists t', task_of g w' = Some t' /\ fbecomes g w ev t t').
    { intros k e w1 w2 H1 E1 E1' E2 Ha Hd. unfold on_worker in H1. rewrite E1' in H1. destruct (nth_error (fl_places w) k) as [[q i]|] eqn:Ek; [|discriminate].
      destruct (Hstop w1 E1 E1') as [St Tk]. rewrite <- Tk in Ht. destruct (onn_becomes _ _ _ _ _ _ _ H1 Ht) as [t' [N D]]. exists t'. split; [eapply same_task; eassumption|]. rewrite E1' in D.
      destruct D as [[D N1]|[[i' [e' [G [D1 D2]]]]|[i' [e' [G [D1 D2]]]]]].
      - left. split; [|exact D]. intro A. specialize (Ha A). subst k. destruct (N1 i Ek) as [K _]. exact (K e eq_refl).
      - injection D1 as <- <-. right. left. exists e. split; [exact D2|]. apply Hd. eapply Huniq; eassumption.
      - discriminate. }
    assert (Hk : forall k e w2, on_tick utc upcoming show now k e w = Some w2 -> same_tasks w2 w' ->
              (fleet_step_of g ev -> k = g) -> (k = g -> floop_does g ev e) -> exists t', task_of g w' = Some t' /\ fbecomes g w ev t t').
    { intros k e w2 H1 E2 Ha Hd. unfold on_tick in H1. destruct (nth_error (fl_places w) k) as [[q i]|] eqn:Ek; [|discriminate].
      destruct (onn_becomes _ _ _ _ _ _ _ H1 Ht) as [t' [N D]]. exists t'. split; [eapply same_task; eassumption|].
      destruct D as [[D N1]|[[i' [e' [G [D1 D2]]]]|[i' [e' [G [D1 D2]]]]]].
      - left. split; [|exact D]. intro A. specialize (Ha A). subst k. destruct (N1 i Ek) as [_ K]. exact (K e eq_refl).
      - discriminate.
      - injection D1 as <- <-. right. right. exists e. split; [exact D2|]. apply Hd. eapply Huniq; eassumption. }
    destruct ev as [|q|q a|o|i pick|i e|c|c|c|k|k|k|k|k n|k n now1 now2 o|k n|k|k c0 c1|k c|k|k c|k c]; cbn [fleet_step] in H.
    - injection H as <-. exists t. split; [|left; split; [intros []|auto]]. destruct (task_where g w t Ht) as [q [i [s [Hg [Hq Hi]]]]].
      unfold task_of. cbn [fl_places fl_nodes]. rewrite Hg, nth_error_app1 by (eapply nth_lt; exact Hq). rewrite Hq. exact Hi.
    - destruct (Nat.ltb q (length (fl_nodes w))); [|discriminate]. injection H as <-. apply Hsame; [now apply same_refl|intros []].
    - unfold fleet_app in H.
      assert (G : forall w2, onn now q a w = Some w2 -> same_tasks w2 w' -> (forall k e, a <> AWorker k e) -> (forall k e, a <> ATick k e) ->
                exists t', task_of g w' = Some t' /\ fbecomes g w (FApp q a) t t').
      { intros w2 H1 E2 N1 N2. destruct (onn_becomes _ _ _ _ _ _ _ H1 Ht) as [t' [N D]]. exists t'. split; [eapply same_task; eassumption|].
        destruct D as [[D _]|[[i [e' [_ [D1 D2]]]]|[i [e' [_ [D1 D2]]]]]]; [left; split; [intros []|exact D]|destruct (N1 _ _ D1)|destruct (N2 _ _ D1)]. }
      destruct a; try discriminate;
        [destruct (nth_error (fl_homes w) _) as [q'|]; [|discriminate]; destruct (Nat.eqb q' q); [|discriminate]; eapply G; [exact H|now apply same_refl|discriminate..]|..].
      all: destruct (onn now q _ w) as [w1|] eqn:E; [|discriminate]; cbn zeta in H; injection H as <-; eapply G; [reflexivity|apply enlist_same|discriminate..].
    - apply Hnet with (l := NDb (QCall o)); [intros []|]. unfold fleet_call in H. destruct o; try discriminate; injection H as <-; reflexivity.
    - injection H as <-. eapply Hnet; [intros []|reflexivity].
    - injection H as <-. eapply Hnet; [intros []|reflexivity].
    - injection H as <-. eapply Hnet; [intros []|reflexivity].
    - injection H as <-. eapply Hnet; [intros []|reflexivity].
    - injection H as <-. eapply Hnet; [intros []|reflexivity].
    - unfold fleet_poll in H. destruct (polled k w) as [q|]; [|discriminate]. cbn zeta in H. set (w1 := net now (NStream q now) w) in *.
      destruct (phase_of q w1) as [ph|]; [destruct ph; try (injection H as <-; apply Hsame; [now apply same_refl|intros []]); match type of H with match ?x with _ => _ end = _ => destruct x end|]; try (injection H as <-; apply Hsame; [now apply same_refl|intros []]);
        (eapply Hw; [exact H|reflexivity|reflexivity|now apply same_refl|intros []|cbn; auto]).
    - unfold fleet_recv in H. destruct (polled k w) as [q|]; [|discriminate]. injection H as <-. eapply Hnet; [intros []|reflexivity].
    - unfold fleet_error in H. destruct (polled k w) as [q|]; [|discriminate]. destruct (phase_of q w) as [[]|]; try discriminate.
      eapply Hw; [exact H|reflexivity|reflexivity|now apply same_refl|intros []|cbn; auto].
    - eapply Hw; [exact H|reflexivity|reflexivity|now apply same_refl|auto|cbn; auto].
    - eapply Hw; [exact H|reflexivity|reflexivity|now apply same_refl|auto|cbn; auto].
    - unfold fleet_end in H. destruct (on_worker utc upcoming show now k _ w) as [w1|] eqn:E; [|discriminate].
      destruct (task_of k w1) as [t1|]; [|discriminate].
      assert (Ep : same_tasks w1 w').
      { destruct (ta_body t1) as [e1 wk1| |]; try (injection H as <-; now apply same_refl).
        destruct (flight_of n (w_flights wk1)) as [[|x|op]|]; try (injection H as <-; now apply same_refl). }
      eapply Hw; [exact E|reflexivity|reflexivity|exact Ep|auto|cbn; auto].
    - unfold fleet_answer in H. destruct (answers k n w) as [|[[| | | | | | | | | |[|r| |]]|] [|]]; try discriminate.
      eapply Hw; [exact H|reflexivity|reflexivity|now apply same_refl|auto|cbn; auto].
    - eapply Hw; [exact H|reflexivity|reflexivity|now apply same_refl|auto|cbn; auto].
    - eapply Hk; [exact H|now apply same_refl|auto|cbn; auto].
    - unfold fleet_wake in H. destruct (on_tick utc upcoming show now k _ w) as [w1|] eqn:E; [|discriminate].
      destruct (task_of k w1) as [t1|]; [|discriminate].
      assert (Ep : same_tasks w1 w') by (destruct (firings (ta_body t1)) as [|[c' next] ?]; [injection H as <-; now apply same_refl|injection H as <-; apply asks_same]).
      eapply Hk; [exact E|exact Ep|auto|cbn; auto].
    - eapply Hk; [exact H|now apply same_refl|auto|cbn; auto].
    - unfold fleet_acted in H. destruct (task_of k w) as [t1|]; [|discriminate]. cbn zeta in H.
      destruct (existsb _ _); [|destruct (forallb _ _); [|discriminate]]; (eapply Hk; [exact H|now apply same_refl|auto|cbn; auto]).
    - eapply Hk; [exact H|now apply same_refl|auto|cbn; auto].
  Qed.

  (** * Asks and calls *)
  Definition fgrow (w w' : fleet) : Prop :=
    (exists l, fl_asks w' = fl_asks w ++ l)
    /\ forall c x, nth_error (fcalls w) c = Some x -> exists x', nth_error (fcalls w') c = Some x' /\ onward x x'.
  Lemma fgrow_same (w w' : fleet) : fl_asks w' = fl_asks w -> fl_net w' = fl_net w -> fgrow w w'.
  Proof. intros E1 E2. split; [exists []; rewrite app_nil_r; exact E1|]. intros c x Hc. exists x. rewrite E2. split; [exact Hc|apply onward_refl]. Qed.
  Lemma fgrow_trans w1 w2 w3 : fgrow w1 w2 -> fgrow w2 w3 -> fgrow w1 w3.
  Proof.
    intros [[l1 A1] A2] [[l2 B1] B2]. split; [exists (l1 ++ l2); rewrite B1, A1, app_assoc; reflexivity|].
    intros c x Hc. destruct (A2 c x Hc) as [x1 [H1 O1]]. destruct (B2 c x1 H1) as [x2 [H2 O2]]. exists x2. split; [exact H2|eapply onward_trans; eassumption].
  Qed.
  Lemma net_grow now l w : fgrow w (net now l w).
  Proof. split; [exists []; rewrite app_nil_r; reflexivity|]. intros c x Hc. cbn [on_net fl_net]. apply net_onward, Hc. Qed.
  Lemma ask_grow now g n o w : fgrow w (fleet_ask ident now g n o w).
  Proof. split; [cbn; eauto|]. intros c x Hc. cbn [fleet_ask fl_net on_net]. apply net_onward, Hc. Qed.
  Lemma asks_grow now g n : forall l w, fgrow w (fold_left (fun w o => fleet_ask ident now g n o w) l w).
  Proof. induction l as [|o l IH]; intro w; [now apply fgrow_same|]. cbn [fold_left]. eapply fgrow_trans; [apply ask_grow|apply IH]. Qed.
  Lemma enlist_grow now q : forall l i w, fgrow w (enlist_all ident now q i l w).
  Proof.
    induction l as [|t l IH]; intros i w; [now apply fgrow_same|]. cbn [enlist_all]. eapply fgrow_trans; [|apply IH]. unfold enlist. destruct (ta_body t).
    - split; [exists []; rewrite app_nil_r; reflexivity|]. intros c x Hc. cbn [fl_net on_net]. apply net_onward, Hc.
    - now apply fgrow_same.
    - now apply fgrow_same.
  Qed.
  Lemma onn_grow now q a (w w' : fleet) : onn now q a w = Some w' -> fgrow w w'.
  Proof.
    unfold on_node. destruct (nth_error (fl_nodes w) q); [|discriminate]. destruct (app_step _ _ _ _ _ _) as [[s r]|]; [|discriminate]. intro H. injection H as <-. now apply fgrow_same.
  Qed.
  Lemma onw_grow now g e (w w' : fleet) : on_worker utc upcoming show now g e w = Some w' -> fgrow w w'.
  Proof. unfold on_worker. destruct (nth_error (fl_places w) g) as [[q i]|]; [|discriminate]. apply onn_grow. Qed.
  Lemma ont_grow now g e (w w' : fleet) : on_tick utc upcoming show now g e w = Some w' -> fgrow w w'.
  Proof. unfold on_tick. destruct (nth_error (fl_places w) g) as [[q i]|]; [|discriminate]. apply onn_grow. Qed.

  Lemma fstep_grow now w ev w' : fstep now w ev = Some w' -> fgrow w w'.
  Proof.
    intro H. destruct ev as [|q|q a|o|i pick|i e|c|c|c|k|k|k|k|k n|k n now1 now2 o|k n|k|k c0 c1|k c|k|k c|k c]; cbn [fleet_step] in H;
      try (eapply onw_grow; exact H); try (eapply ont_grow; exact H); try (injection H as <-; apply net_grow).
    - injection H as <-. now apply fgrow_same.
    - destruct (Nat.ltb q (length (fl_nodes w))); [|discriminate]. injection H as <-. split; [exists []; rewrite app_nil_r; reflexivity|].
      intros c x Hc. exists x. split; [exact Hc|apply onward_refl].
    - unfold fleet_app in H.
      assert (G : match onn now q a w with
        | Some w' => let n := length (tasks_of q w) in Some (enlist_all ident now q n (skipn n (tasks_of q w')) w')
        | None => None end = Some w' -> fgrow w w').
      { destruct (onn now q a w) as [w1|] eqn:E; [|discriminate]. cbn zeta. intro K. injection K as <-. eapply fgrow_trans; [eapply onn_grow; exact E|apply enlist_grow]. }
      destruct a; try discriminate; try (apply G; exact H). destruct (nth_error (fl_homes w) _) as [q'|]; [|discriminate]. destruct (Nat.eqb q' q); [|discriminate]. eapply onn_grow. exact H.
    - unfold fleet_call in H. destruct o; try discriminate; injection H as <-; apply net_grow.
    - unfold fleet_poll in H. destruct (polled k w) as [q|]; [|discriminate]. cbn zeta in H. eapply fgrow_trans; [apply (net_grow now (NStream q now))|].
      destruct (phase_of q (net now (NStream q now) w)) as [ph|]; [destruct ph; try (injection H as <-; now apply fgrow_same); match type of H with match ?x with _ => _ end = _ => destruct x end|];
        try (injection H as <-; now apply fgrow_same); eapply onw_grow; exact H.
    - unfold fleet_recv in H. destruct (polled k w) as [q|]; [|discriminate]. injection H as <-. apply net_grow.
    - unfold fleet_error in H. destruct (polled k w) as [q|]; [|discriminate]. destruct (phase_of q w) as [[]|]; try discriminate.
      eapply fgrow_trans; [apply (net_grow now (NError q))|eapply onw_grow; exact H].
    - unfold fleet_end in H. destruct (on_worker utc upcoming show now k _ w) as [w1|] eqn:E; [|discriminate]. eapply fgrow_trans; [eapply onw_grow; exact E|].
      destruct (task_of k w1) as [t1|]; [|discriminate]. destruct (ta_body t1) as [e1 wk1| |]; try (injection H as <-; now apply fgrow_same).
      destruct (flight_of n (w_flights wk1)) as [[|x|op]|]; injection H as <-; try now apply fgrow_same. apply ask_grow.
    - unfold fleet_answer in H. destruct (answers k n w) as [|[[| | | | | | | | | |[|r| |]]|] [|]]; try discriminate. eapply onw_grow. exact H.
    - unfold fleet_wake in H. destruct (on_tick utc upcoming show now k _ w) as [w1|] eqn:E; [|discriminate]. eapply fgrow_trans; [eapply ont_grow; exact E|].
      destruct (task_of k w1) as [t1|]; [|discriminate]. destruct (firings (ta_body t1)) as [|[c' next] ?]; injection H as <-; [now apply fgrow_same|apply asks_grow].
    - unfold fleet_acted in H. destruct (task_of k w) as [t1|]; [|discriminate]. cbn zeta in H.
      destruct (existsb _ _); [|destruct (forallb _ _); [|discriminate]]; (eapply ont_grow; exact H).
  Qed.

  (** What a step makes of a worker. *)
  Lemma fworker_becomes now w ev w' i t e wk : fstep now w ev = Some w' -> NoDup (fl_places w) -> task_of i w = Some t -> ta_body t = BWorker e wk ->
    exists wk', task_of i w' = Some (mk_task (ta_backend t) (ta_token t) (BWorker e wk'))
      /\ ((~ fleet_step_of i ev /\ wk' = wk) \/ (~ fleet_step_of i ev /\ wstep e wk WCancel = Some wk')
          \/ exists a, wstep e wk a = Some wk' /\ a <> WCancel /\ fworker_does i ev a).
  Proof.
    intros H Hnd Ht Eb. destruct (fstep_becomes _ _ _ _ _ _ H Hnd Ht) as [t' [N B]]. destruct t as [tb tk bd]. cbn [ta_body ta_backend ta_token] in *. subst bd.
    destruct B as [[Hn [-> | ->]]|[[a [Hs Hd]]|[a [Hs _]]]].
    - exists wk. auto.
    - unfold App.told in N. cbn [ta_token ta_body ta_backend] in N. rewrite Nat.eqb_refl in N. destruct (wstep e wk WCancel) as [wk'|] eqn:E; [exists wk'|exists wk]; auto.
    - unfold worker_task_step in Hs. cbn [ta_body ta_backend ta_token] in Hs.
      destruct (wstep e wk a) as [wk'|] eqn:E; [|destruct a; discriminate].
      assert (Hc : a <> WCancel) by (intros ->; destruct ev; cbn in Hd; try destruct Hd).
      exists wk'. split; [destruct a; try congruence; injection Hs as <-; exact N|]. right. right. eauto.
    - unfold tick_task_step in Hs. cbn [ta_body] in Hs. destruct a; try discriminate; match type of Hs with match ?x with _ => _ end = _ => destruct x end; discriminate.
  Qed.

  Definition fhist (st : nat -> fleet) (ev : nat -> time * fev) : Prop := st 0%nat = fleet_init t0 /\ endless fstep st ev.
  Lemma freach st ev : fhist st ev -> forall n, frun (fleet_init t0) (first n ev) = Some (st n).
  Proof.
    intros [H0 H] n. induction n as [|n IH]; [cbn; congruence|]. unfold first in *. rewrite seq_S, map_app, (frun_app utc upcoming show hash ident), IH. cbn [plus map fleet_run].
    rewrite (surjective_pairing (ev n)). rewrite H. reflexivity.
  Qed.
  Lemma freached st ev : fhist st ev -> forall n, reached utc upcoming show hash ident t0 (st n).
  Proof. intros H n. exists (first n ev). apply freach, H. Qed.
  Lemma fnodup st ev : fhist st ev -> forall n, NoDup (fl_places (st n)).
  Proof. intros H n. eapply reached_nodup, freached, H. Qed.
  Lemma fgrown st ev : fhist st ev -> forall n m, (n <= m)%nat -> fgrow (st n) (st m).
  Proof.
    intros [_ H] n m L. induction L as [|m L IH]; [now apply fgrow_same|]. eapply fgrow_trans; [exact IH|]. eapply fstep_grow, H.
  Qed.
  Lemma still_back st ev n m c : fhist st ev -> (n <= m)%nat -> fleet_returned (st n) c -> fleet_returned (st m) c.
  Proof.
    intros H L [o [r Hc]]. destruct (proj2 (fgrown st ev H n m L) c _ Hc) as [[o' pc'] [Hc' [_ O]]]. exists o'.
    destruct O as [O|[O1 O2]]; [injection O as -> ->; eauto|]. cbn [qc_pc] in *. destruct O2 as [O2|[O2|[r1 [r2 [_ O2]]]]]; [discriminate|cbn in O2; lia|]. exists r2. congruence.
  Qed.
  (** Every call returns. *)
  Lemma calls_come_back st ev : fhist st ev -> calls_move st -> forall n c x, nth_error (fcalls (st n)) c = Some x ->
    exists m, (n <= m)%nat /\ fleet_returned (st m) c.
  Proof.
    intros H Hg.
    assert (K : forall k n c x, actions_left (qc_pc x) = k -> qc_pc x <> QStart -> nth_error (fcalls (st n)) c = Some x -> exists m, (n <= m)%nat /\ fleet_returned (st m) c).
    { induction k as [k IH] using lt_wf_ind. intros n c x Ek Hx Hc. destruct (Hg n c x Hc) as [m [L [Hr|Hr]]]; [|eauto].
      destruct (proj2 (fgrown st ev H n m L) c x Hc) as [x' [Hc' [_ [->|[O1 O2]]]]]; [contradiction|].
      destruct O2 as [O2|[O2|[r1 [r2 [_ O2]]]]]; [contradiction| |].
      - destruct (IH (actions_left (qc_pc x')) ltac:(lia) m c x' eq_refl O1 Hc') as [m' [L' R]]. exists m'. split; [lia|exact R].
      - exists m. split; [exact L|]. destruct x' as [o' pc']. cbn in O2. subst pc'. exists o', r2. exact Hc'. }
    intros n c x Hc. destruct (Hg n c x Hc) as [m [L [Hr|Hr]]]; [|eauto].
    destruct (proj2 (fgrown st ev H n m L) c x Hc) as [x' [Hc' [_ [->|[O1 _]]]]]; [contradiction|].
    destruct (K _ m c x' eq_refl O1 Hc') as [m' [L' R]]. exists m'. split; [lia|exact R].
  Qed.
  (** Tasks stay. *)
  Lemma worker_stays st ev i e tb tk n wk : fhist st ev -> task_of i (st n) = Some (mk_task tb tk (BWorker e wk)) ->
    forall m, (n <= m)%nat -> exists wk', task_of i (st m) = Some (mk_task tb tk (BWorker e wk')).
  Proof.
    intros H Ht m L. induction L as [|m L [wk1 IH]]; [eauto|]. destruct (fworker_becomes _ _ _ _ _ _ _ _ (proj2 H m) (fnodup st ev H m) IH eq_refl) as [wk' [N _]]. eauto.
  Qed.

  (** * A job taken is reported *)

  (** How far message [n] of a worker, of worker [i], is from its end. *)
  Definition far (i n : nat) (w : fleet) : nat :=
    match task_of i w with
    | Some t => match ta_body t with BWorker _ wk => afar n wk | _ => 0 end
    | None => 0
    end.
  Definition fhad (i n : nat) (w : fleet) : Prop :=
    exists t e wk, task_of i w = Some t /\ ta_body t = BWorker e wk /\ (n < w_next wk)%nat.
  Lemma does_about i n (ev : fev) a : fleet_step_with i n ev -> fworker_does i ev a -> about n a.
  Proof. destruct ev; cbn; try tauto; destruct a; cbn; try tauto; intros [_ ->] K; tauto. Qed.
  Lemma about_with i n (ev : fev) : fleet_step_with i n ev -> fleet_step_of i ev.
  Proof using. clear. destruct ev; cbn; tauto. Qed.

  Lemma far_step es now w ev w' i n : frun (fleet_init t0) es = Some w -> fstep now w ev = Some w' -> fhad i n w ->
    fhad i n w' /\ (far i n w' <= far i n w)%nat /\ (fleet_step_with i n ev -> far i n w <> 0%nat -> (far i n w' < far i n w)%nat).
  Proof.
    intros Hr H [t [e [wk [Ht [Eb Hn]]]]]. destruct (task_worker utc upcoming show hash ident t0 es w i t e wk Hr Ht Eb) as [_ [_ W]].
    pose proof (reached_nodup utc upcoming show hash ident t0 w (ex_intro _ es Hr)) as Hnd.
    destruct (fworker_becomes _ _ _ _ _ _ _ _ H Hnd Ht Eb) as [wk' [N B]]. unfold far. rewrite Ht, Eb, N. cbn [ta_body].
    assert (Hh : (n < w_next wk')%nat -> fhad i n w') by (intro K; do 3 eexists; split; [exact N|]; split; [reflexivity|exact K]).
    assert (G : forall a, wstep e wk a = Some wk' -> (n < w_next wk')%nat /\ (afar n wk' <= afar n wk)%nat
              /\ (about n a -> afar n wk <> 0 -> afar n wk' < afar n wk)%nat).
    { intros a Hs. destruct (flight_moves _ _ _ _ _ _ _ _ _ n Hs W Hn) as [Hn' M]. split; [exact Hn'|].
      assert (El : w_life wk = Working) by (unfold worker_step in Hs; destruct (w_life wk); congruence). unfold afar. rewrite El.
      destruct M as [[-> Ha]|[-> |[[m [x [-> ->]]]|[x [op [-> ->]]]]]].
      - split; [destruct (w_life wk'); lia|]. intro K. destruct (Ha K).
      - destruct (w_life wk'); (split; [lia|intros _ K; destruct (flight_of n (w_flights wk)); [unfold weight; destruct f; cbn; lia|congruence]]).
      - destruct (w_life wk'); cbn; split; lia.
      - destruct (w_life wk'); cbn; split; lia. }
    destruct B as [[Hn' ->]|[[Hn' Hs]|[a [Hs [_ Hd]]]]].
    - split; [apply Hh; exact Hn|]. split; [lia|]. intro K. destruct (Hn' (about_with _ _ _ K)).
    - destruct (G _ Hs) as [G1 [G2 _]]. split; [apply Hh; exact G1|]. split; [exact G2|]. intro K. destruct (Hn' (about_with _ _ _ K)).
    - destruct (G _ Hs) as [G1 [G2 G3]]. split; [apply Hh; exact G1|]. split; [exact G2|]. intro K. apply G3. eapply does_about; eassumption.
  Qed.
  Lemma far_later st ev i n k : fhist st ev -> fhad i n (st k) -> forall m, (k <= m)%nat -> fhad i n (st m) /\ (far i n (st m) <= far i n (st k))%nat.
  Proof.
    intros H Hh m L. induction L as [|m L [IH1 IH2]]; [auto|]. destruct (far_step _ _ _ _ _ _ _ (freach st ev H m) (proj2 H m) IH1) as [A [B _]]. split; [exact A|lia].
  Qed.

  Lemma far_some i n w : far i n w <> 0%nat -> exists t e wk ph, task_of i w = Some t /\ ta_body t = BWorker e wk
    /\ w_life wk = Working /\ flight_of n (w_flights wk) = Some ph /\ far i n w = weight (n, ph).
  Proof.
    unfold far, afar. destruct (task_of i w) as [t|] eqn:Et; [|congruence].
    destruct (ta_body t) as [e wk| |] eqn:Eb; try congruence. destruct (w_life wk) eqn:El; try congruence.
    destruct (flight_of n (w_flights wk)) as [ph|] eqn:Ef; [|congruence]. intros _. exists t, e, wk, ph. auto.
  Qed.
  Lemma can_go es w i t e wk n ph : frun (fleet_init t0) es = Some w -> task_of i w = Some t -> ta_body t = BWorker e wk ->
    w_life wk = Working -> flight_of n (w_flights wk) = Some ph ->
    (forall op, ph = FReporting op -> exists a, filter (fun a => Nat.eqb (ak_task a) i && Nat.eqb (ak_turn a) n) (fl_asks w) = [a] /\ fleet_returned w (ak_call a)) ->
    possible fstep (fleet_step_with i n) w.
  Proof.
    intros H Ht Eb El Ef Hret. destruct ph as [m|x|op].
    - assert (exists wk', wstep e wk (WStart n) = Some wk') as [wk' Hs].
      { unfold worker_step. rewrite El, Ef. destruct m as [j|er]; [destruct (begin_job _ _ j)|]; eauto. }
      destruct (do_worker utc upcoming show hash ident t0 0 i w t e wk _ _ (ex_intro _ es H) Ht Eb Hs ltac:(discriminate)) as [w' [A1 _]]. exists 0, (FStart i n), w'. split; [cbn; auto|]. exact A1.
    - assert (exists wk', wstep e wk (WEnd n 0 0 ODone) = Some wk') as [wk' Hs].
      { unfold worker_step. rewrite El, Ef. eexists; reflexivity. }
      destruct (do_worker utc upcoming show hash ident t0 0 i w t e wk _ _ (ex_intro _ es H) Ht Eb Hs ltac:(discriminate)) as [w' [A1 [A2 [A3 [A4 _]]]]].
      assert (exists w'', fstep 0 w (FEnd i n 0 0 ODone) = Some w'') as [w'' K].
      { cbn [fleet_step]. unfold fleet_end. rewrite A1, A3. cbn [ta_body ta_backend].
        destruct (flight_of n (w_flights wk')) as [[|?|op]|]; eexists; reflexivity. }
      exists 0, (FEnd i n 0 0 ODone), w''. split; [cbn; auto|exact K].
    - destruct (Hret op eq_refl) as [a [Ea [o [r Hc]]]].
      destruct (answer_thm utc upcoming show hash ident t0 es w i t e wk n op Hsound H Ht Eb Ef) as [a' [pc [E1 [E2 E4]]]].
      rewrite Ea in E1. injection E1 as <-. rewrite Hc in E2. injection E2 as _ <-.
      specialize (E4 0). cbv beta iota in E4. destruct E4 as [r' [w' [wk' [_ [K _]]]]]. exists 0, (FAnswer i n), w'. split; [cbn; auto|exact K].
  Qed.

  (** The one ask of a report stays. *)
  Lemma ask_stays st ev k m i n a a' : fhist st ev -> (k <= m)%nat ->
    filter (fun a => Nat.eqb (ak_task a) i && Nat.eqb (ak_turn a) n) (fl_asks (st k)) = [a] ->
    filter (fun a => Nat.eqb (ak_task a) i && Nat.eqb (ak_turn a) n) (fl_asks (st m)) = [a'] -> a' = a.
  Proof.
    intros H L E1 E2. destruct (proj1 (fgrown st ev H k m L)) as [l E]. rewrite E, filter_app, E1 in E2. cbn in E2. injection E2 as -> _. reflexivity.
  Qed.

  Theorem job_goes st ev i n : fhist st ev -> calls_move st -> just fstep (fleet_step_with i n) st ev ->
    forall k, fhad i n (st k) -> exists m, (k <= m)%nat /\ far i n (st m) = 0%nat.
  Proof.
    intros H Hg Hj k Hh.
    assert (K : forall j, (k <= j)%nat -> far i n (st j) <> 0%nat -> exists m, (j <= m)%nat /\ (far i n (st m) < far i n (st j))%nat).
    2: { destruct (comes_down (fun d => far i n (st (k + d)%nat))) with (n := 0%nat) as [d [_ Ed]]; [|exists (k + d)%nat; split; [lia|exact Ed]].
         intros d Hd. destruct (K (k + d)%nat ltac:(lia) Hd) as [m [L D]]. exists (m - k)%nat. replace (k + (m - k))%nat with m by lia. split; [lia|exact D]. }
    intros j Lj Hd. pose proof (proj1 (far_later st ev i n k H Hh j Lj)) as Hhj.
    (* from [j'] on a step is possible for as long as nothing has changed *)
    assert (G : forall j', (j <= j')%nat ->
              (forall m, (j' <= m)%nat -> far i n (st m) = far i n (st j) -> possible fstep (fleet_step_with i n) (st m)) ->
              exists m, (j <= m)%nat /\ (far i n (st m) < far i n (st j))%nat).
    { intros j' Lj' Hp. destruct (Hj j') as [m [L D]]. destruct (far_later st ev i n j H Hhj m ltac:(lia)) as [Hhm F].
      destruct (Nat.eq_dec (far i n (st m)) (far i n (st j))) as [Ef|Ef]; [|exists m; split; lia].
      destruct D as [D|D]; [|destruct (D (Hp m L Ef))].
      destruct (far_step _ _ _ _ _ _ _ (freach st ev H m) (proj2 H m) Hhm) as [_ [_ F3]]. specialize (F3 D ltac:(lia)).
      exists (S m). split; lia. }
    destruct (far_some _ _ _ Hd) as [t [e [wk [ph [Ht [Eb [El [Ef Ew]]]]]]]].
    assert (Hsame : forall m, (j <= m)%nat -> far i n (st m) = far i n (st j) ->
              exists wk', task_of i (st m) = Some (mk_task (ta_backend t) (ta_token t) (BWorker e wk')) /\ w_life wk' = Working
                /\ exists ph', flight_of n (w_flights wk') = Some ph' /\ weight (n, ph') = weight (n, ph)).
    { intros m L E. destruct (worker_stays st ev i e (ta_backend t) (ta_token t) j wk H) with (m := m) as [wk' N]; [destruct t; cbn in *; subst; exact Ht|exact L|].
      exists wk'. split; [exact N|]. destruct (far_some i n (st m)) as [t' [e' [wk'' [ph' [Ht' [Eb' [El' [Ef' Ew']]]]]]]]; [congruence|].
      rewrite N in Ht'. injection Ht' as <-. cbn [ta_body] in Eb'. injection Eb' as <- <-. split; [exact El'|]. exists ph'. split; [exact Ef'|congruence]. }
    destruct ph as [m0|x|op].
    - apply (G j (le_n _)). intros m L E. destruct (Hsame m L E) as [wk' [N [El' [ph' [Ef' Ew']]]]].
      eapply can_go; [exact (freach st ev H m)|exact N|reflexivity|exact El'|exact Ef'|]. intros op ->. discriminate Ew'.
    - apply (G j (le_n _)). intros m L E. destruct (Hsame m L E) as [wk' [N [El' [ph' [Ef' Ew']]]]].
      eapply can_go; [exact (freach st ev H m)|exact N|reflexivity|exact El'|exact Ef'|]. intros op ->. discriminate Ew'.
    - destruct (report_thm utc upcoming show hash ident t0 _ _ i t e wk n op (freach st ev H j) Ht Eb Ef) as [a [c [E1 [E2 _]]]].
      destruct (calls_come_back st ev H Hg j _ _ E2) as [j' [Lj' R]]. apply (G j' Lj'). intros m L E.
      destruct (Hsame m ltac:(lia) E) as [wk' [N [El' [ph' [Ef' Ew']]]]].
      eapply can_go; [exact (freach st ev H m)|exact N|reflexivity|exact El'|exact Ef'|]. intros op' ->. cbn [ta_backend].
      destruct (report_thm utc upcoming show hash ident t0 _ _ i _ e wk' n op' (freach st ev H m) N eq_refl Ef') as [a' [c' [E1' _]]].
      assert (a' = a) as -> by (eapply (ask_stays st ev j m); [exact H|lia|exact E1|exact E1']).
      exists a. split; [exact E1'|]. eapply still_back; [exact H|exact L|exact R].
  Qed.

  (** * A worker that has been told to stop ends *)

  Definition fuel_of (i : nat) (w : fleet) : nat :=
    match task_of i w with
    | Some t => match ta_body t with BWorker _ wk => fuel wk | _ => 0 end
    | None => 0
    end.
  Lemma stop_step now w ev w' i t e wk : fstep now w ev = Some w' -> NoDup (fl_places w) -> task_of i w = Some t -> ta_body t = BWorker e wk -> w_cancelled wk = true ->
    exists wk', task_of i w' = Some (mk_task (ta_backend t) (ta_token t) (BWorker e wk')) /\ w_cancelled wk' = true
      /\ ((alike wk wk' /\ ~ fleet_step_of i ev) \/ (fuel wk' < fuel wk)%nat).
  Proof.
    intros H Hnd Ht Eb Hc. destruct (fworker_becomes _ _ _ _ _ _ _ _ H Hnd Ht Eb) as [wk' [N B]]. exists wk'. split; [exact N|].
    destruct B as [[Hn ->]|[[Hn Hs]|[a [Hs [Ha _]]]]].
    - split; [exact Hc|]. left. unfold alike. auto 10.
    - unfold worker_step in Hs. destruct (w_life wk) eqn:El; try discriminate. injection Hs as <-. split; [reflexivity|]. left. split; [|exact Hn].
      unfold alike. cbn. auto 10.
    - destruct (fuel_step _ _ _ _ _ _ _ _ _ Hs Hc) as [F1 [_ F2]]. split; [exact F1|]. right. exact (F2 Ha).
  Qed.
  Lemma stop_later st ev i j t e wk : fhist st ev -> task_of i (st j) = Some t -> ta_body t = BWorker e wk -> w_cancelled wk = true ->
    forall m, (j <= m)%nat -> exists wk', task_of i (st m) = Some (mk_task (ta_backend t) (ta_token t) (BWorker e wk')) /\ w_cancelled wk' = true
      /\ (alike wk wk' \/ (fuel wk' < fuel wk)%nat).
  Proof.
    intros H Ht Eb Hc m L. induction L as [|m L [wk1 [N1 [C1 D1]]]].
    - exists wk. split; [destruct t; cbn in *; subst; exact Ht|]. split; [exact Hc|]. left. unfold alike. auto 10.
    - destruct (stop_step _ _ _ _ _ _ _ _ (proj2 H m) (fnodup st ev H m) N1 eq_refl C1) as [wk' [N2 [C2 D2]]]. cbn [ta_backend ta_token] in N2. exists wk'. split; [exact N2|]. split; [exact C2|].
      destruct D1 as [D1|D1], D2 as [[D2 _]|D2].
      + left. eapply alike_trans; eassumption.
      + right. rewrite (alike_fuel _ _ D1) in D2. exact D2.
      + right. rewrite (alike_fuel _ _ D2). exact D1.
      + right. lia.
  Qed.
  Lemma with_of i n (ev : fev) : fleet_step_with i n ev -> fleet_step_of i ev.
  Proof using. clear. destruct ev; cbn; tauto. Qed.

  Theorem worker_ends st ev i k t e wk : fhist st ev -> calls_move st -> just fstep (fleet_step_of i) st ev ->
    task_of i (st k) = Some t -> ta_body t = BWorker e wk -> w_cancelled wk = true ->
    (forall l, ex_max_concurrency (xe_consts e) = Some l -> 0 <= l) ->
    exists m t', (k <= m)%nat /\ task_of i (st m) = Some t' /\ (ended t' \/ died t').
  Proof.
    intros H Hg Hj Ht Eb Hc Hlim.
    assert (Fu : forall m wk1, task_of i (st m) = Some (mk_task (ta_backend t) (ta_token t) (BWorker e wk1)) -> fuel_of i (st m) = fuel wk1)
      by (intros m wk1 N; unfold fuel_of; rewrite N; reflexivity).
    assert (K : forall j, (k <= j)%nat -> fuel_of i (st j) <> 0%nat -> exists m, (j <= m)%nat /\ (fuel_of i (st m) < fuel_of i (st j))%nat).
    2: { destruct (comes_down (fun d => fuel_of i (st (k + d)%nat))) with (n := 0%nat) as [d [_ Ed]].
         - intros d Hd. destruct (K (k + d)%nat ltac:(lia) Hd) as [m [L D]]. exists (m - k)%nat. replace (k + (m - k))%nat with m by lia. split; [lia|exact D].
         - destruct (stop_later st ev i k t e wk H Ht Eb Hc (k + d)%nat ltac:(lia)) as [wk' [N _]]. exists (k + d)%nat. eexists. split; [lia|]. split; [exact N|].
           rewrite (Fu _ _ N) in Ed. unfold fuel in Ed. unfold ended, died. cbn [ta_body]. destruct (w_life wk'); [discriminate|auto..]. }
    intros j Lj Hd. destruct (stop_later st ev i k t e wk H Ht Eb Hc j Lj) as [wkj [Nj [Cj _]]]. rewrite (Fu _ _ Nj) in Hd |- *.
    assert (Elj : w_life wkj = Working) by (unfold fuel in Hd; destruct (w_life wkj); congruence).
    assert (G : forall j', (j <= j')%nat ->
              (forall m wk1, (j' <= m)%nat -> task_of i (st m) = Some (mk_task (ta_backend t) (ta_token t) (BWorker e wk1)) -> alike wkj wk1 ->
                 possible fstep (fleet_step_of i) (st m)) ->
              exists m, (j <= m)%nat /\ (fuel_of i (st m) < fuel wkj)%nat).
    { intros j' Lj' Hp. destruct (Hj j') as [m [L D]]. destruct (stop_later st ev i j _ e wkj H Nj eq_refl Cj m ltac:(lia)) as [wkm [Nm [Cm [Am|Am]]]]; cbn [ta_backend ta_token] in Nm.
      - destruct D as [D|D]; [|destruct (D (Hp m wkm L Nm Am))].
        destruct (stop_step _ _ _ _ _ _ _ _ (proj2 H m) (fnodup st ev H m) Nm eq_refl Cm) as [wk' [N2 [_ [[_ D2]|D2]]]]; [destruct (D2 D)|].
        exists (S m). split; [lia|]. rewrite (Fu _ _ N2), <- (alike_fuel _ _ Am). exact D2.
      - exists m. split; [lia|]. rewrite (Fu _ _ Nm). exact Am. }
    assert (Pos : forall m n ph wk1, task_of i (st m) = Some (mk_task (ta_backend t) (ta_token t) (BWorker e wk1)) -> alike wkj wk1 ->
              flight_of n (w_flights wkj) = Some ph ->
              (forall op, ph = FReporting op -> exists a, filter (fun a => Nat.eqb (ak_task a) i && Nat.eqb (ak_turn a) n) (fl_asks (st m)) = [a] /\ fleet_returned (st m) (ak_call a)) ->
              possible fstep (fleet_step_of i) (st m)).
    { intros m n ph wk1 N A Ef Hop. destruct A as [A1 [_ [A3 _]]].
      destruct (can_go _ _ _ _ _ _ n ph (freach st ev H m) N eq_refl) as [now [vv [w' [P1 P2]]]]; [congruence|congruence|exact Hop|].
      exists now, vv, w'. split; [eapply with_of; exact P1|exact P2]. }
    destruct (w_flights wkj) as [|[n ph] l] eqn:Ef.
    - assert (Hb : below_limit (ex_max_concurrency (xe_consts e)) 0 = true).
      { unfold below_limit. destruct (ex_max_concurrency (xe_consts e)) as [l|]; [|reflexivity]. specialize (Hlim l eq_refl).
        destruct (Z.eqb_spec l 0); [reflexivity|]. cbn [orb]. apply Z.ltb_lt. cbn. lia. }
      apply (G j (le_n _)). intros m wk1 L N [A1 [A2 [A3 [A4 A5]]]]. destruct (w_open wkj) eqn:Eo.
      + destruct (do_worker utc upcoming show hash ident t0 0 i (st m) _ e wk1 WClose (mk_worker (w_flights wk1) (w_next wk1) (w_cancelled wk1) false None (w_life wk1) (w_seen wk1)) (freached st ev H m) N eq_refl) as [w2 [B1 _]];
          [unfold worker_step; rewrite A1, A2, A3, A5, Ef, Elj; cbn [length andb]; rewrite Hb; reflexivity|discriminate|].
        exists 0, (FClose i), w2. split; [reflexivity|exact B1].
      + destruct (do_worker utc upcoming show hash ident t0 0 i (st m) _ e wk1 WFinish (mk_worker [] (w_next wk1) (w_cancelled wk1) false None Ended (w_seen wk1)) (freached st ev H m) N eq_refl) as [w2 [B1 _]];
          [unfold worker_step; rewrite A1, A2, A3, Ef, Elj; reflexivity|discriminate|].
        exists 0, (FFinish i), w2. split; [reflexivity|exact B1].
    - assert (Fn : flight_of n (w_flights wkj) = Some ph) by (rewrite Ef; cbn; now rewrite Nat.eqb_refl). rewrite Ef in Fn. 
      destruct ph as [m0|x|op].
      + apply (G j (le_n _)). intros m wk1 L N A. eapply Pos; [exact N|exact A|exact Fn|discriminate].
      + apply (G j (le_n _)). intros m wk1 L N A. eapply Pos; [exact N|exact A|exact Fn|discriminate].
      + rewrite <- Ef in Fn. destruct (report_thm utc upcoming show hash ident t0 _ _ i _ e wkj n op (freach st ev H j) Nj eq_refl Fn) as [a [c [E1 [E2 _]]]].
        destruct (calls_come_back st ev H Hg j _ _ E2) as [j' [Lj' R]]. apply (G j' Lj'). intros m wk1 L N A.
        eapply Pos; [exact N|exact A|rewrite <- Ef; exact Fn|]. intros op' _.
        assert (Fn' : flight_of n (w_flights wk1) = Some (FReporting op)) by (destruct A as [_ [_ [-> _]]]; exact Fn).
        destruct (report_thm utc upcoming show hash ident t0 _ _ i _ e wk1 n op (freach st ev H m) N eq_refl Fn') as [a' [c' [E1' _]]].
        assert (a' = a) as -> by (eapply (ask_stays st ev j m); [exact H|lia|exact E1|exact E1']).
        exists a. split; [exact E1'|]. eapply still_back; [exact H|exact L|exact R].
  Qed.

  (** * A loop that has been told to stop ends *)
  Notation tkof := (ticker_of utc upcoming).

  Lemma loop_becomes now w ev w' i t up k : fstep now w ev = Some w' -> NoDup (fl_places w) -> task_of i w = Some t -> tkof t = (Some up, Some k) ->
    exists k', task_of i w' = Some (with_ticker k' t)
      /\ ((~ fleet_step_of i ev /\ k' = k) \/ exists a, tick_step up k a = Some k' /\ floop_does i ev a).
  Proof.
    intros H Hnd Ht Hk. destruct (fstep_becomes _ _ _ _ _ _ H Hnd Ht) as [t' [N B]].
    assert (Hself : with_ticker k t = t) by (destruct t as [tb tk [e wk|e sc z d k0|sc cfg k0]]; unfold ticker_of in Hk; cbn in *; try discriminate; injection Hk as _ <-; reflexivity).
    destruct B as [[Hn [-> | ->]]|[[a [Hs _]]|[a [Hs Hd]]]].
    - exists k. rewrite Hself. auto.
    - exists k. assert (E : App.told show (ta_token t) t = t).
      { unfold App.told. rewrite Nat.eqb_refl. unfold ticker_of in Hk. destruct (ta_body t); [discriminate|reflexivity..]. }
      rewrite E in N. rewrite Hself. auto.
    - unfold worker_task_step in Hs. unfold ticker_of in Hk. destruct (ta_body t); try discriminate; destruct a; discriminate.
    - unfold tick_task_step in Hs. unfold ticker_of in Hk. unfold with_ticker. destruct (ta_body t) as [e wk|e sc z d k0|sc cfg k0]; try discriminate; injection Hk as <- <-.
      + destruct (tick_step (upcoming sc z) k0 a) as [k'|] eqn:E; [|destruct a, (stopped i w); discriminate].
        exists k'. split; [|right; eauto]. destruct a, (stopped i w); try discriminate; injection Hs as <-; exact N.
      + destruct (tick_step (upcoming sc utc) k0 a) as [k'|] eqn:E; [|destruct a, (stopped i w); discriminate].
        exists k'. split; [|right; eauto]. destruct a, (stopped i w); try discriminate; injection Hs as <-; exact N.
  Qed.
  Definition dist_of (i : nat) (w : fleet) : nat :=
    match task_of i w with
    | Some t => match snd (tkof t) with Some k => dist (tk_phase k) | None => 0 end
    | None => 0
    end.
  Lemma loop_stays st ev i j t up k : fhist st ev -> task_of i (st j) = Some t -> tkof t = (Some up, Some k) ->
    forall m, (j <= m)%nat -> exists k', task_of i (st m) = Some (with_ticker k' t).
  Proof.
    intros H Ht Hk m L. induction L as [|m L [k1 IH]].
    - exists k. rewrite Ht. f_equal. destruct t as [tb tk [e wk|e sc z d k0|sc cfg k0]]; unfold ticker_of in Hk; cbn in *; try discriminate; injection Hk as _ <-; reflexivity.
    - destruct (loop_becomes _ _ _ _ _ _ _ _ (proj2 H m) (fnodup st ev H m) IH (with_ticker_of utc upcoming t up k k1 Hk)) as [k' [N _]]. rewrite with_with in N. eauto.
  Qed.
  Lemma loop_waits st ev i j t up k : fhist st ev -> task_of i (st j) = Some t -> tkof t = (Some up, Some k) ->
    dist (tk_phase k) <> 0%nat ->
    forall m, (j <= m)%nat -> task_of i (st m) = Some t \/ exists m', (j <= m' <= m)%nat /\ (dist_of i (st m') < dist (tk_phase k))%nat.
  Proof.
    intros H Ht Hk Hd m L. induction L as [|m L [IH|[m' [L' D]]]]; [auto| |right; exists m'; split; [lia|exact D]].
    destruct (loop_becomes _ _ _ _ _ _ _ _ (proj2 H m) (fnodup st ev H m) IH Hk) as [k' [N [[_ ->]|[a [Hs _]]]]].
    - left. rewrite N. f_equal. destruct t as [tb tk [e wk|e sc z d k0|sc cfg k0]]; unfold ticker_of in Hk; cbn in *; try discriminate; injection Hk as _ <-; reflexivity.
    - right. exists (S m). split; [lia|]. unfold dist_of. rewrite N, (with_ticker_of utc upcoming t up k k' Hk). cbn [snd]. eapply (dist_step utc upcoming show); eassumption.
  Qed.
  (** All of some calls return. *)
  Lemma all_return st ev : fhist st ev -> calls_move st -> forall l n,
    (forall c, In c l -> exists x, nth_error (fcalls (st n)) c = Some x) ->
    exists m, (n <= m)%nat /\ forall c, In c l -> fleet_returned (st m) c.
  Proof.
    intros H Hg l n. induction l as [|c l IH]; intro Hl; [exists n; split; [lia|intros c []]|].
    destruct IH as [m [L K]]; [intros c' Hc'; apply Hl; right; exact Hc'|].
    destruct (Hl c (or_introl eq_refl)) as [x Hc]. destruct (calls_come_back st ev H Hg n c x Hc) as [m' [L' R]].
    exists (Nat.max m m'). split; [lia|]. intros c' [<-|Hc'].
    - eapply still_back; [exact H| |exact R]. lia.
    - eapply still_back; [exact H| |exact (K c' Hc')]. lia.
  Qed.
  Lemma can_tick now w i t up k a k' vv : reached utc upcoming show hash ident t0 w -> task_of i w = Some t -> tkof t = (Some up, Some k) -> tick_step up k a = Some k' ->
    stopped i w = true \/ a <> Cancel ->
    fstep now w vv = on_tick utc upcoming show now i a w -> fleet_step_of i vv -> possible fstep (fleet_step_of i) w.
  Proof.
    intros Hr Ht Hk Hs Hc Hv Ho.
    destruct (do_tick utc upcoming show hash ident t0 now i w t a (with_ticker k' t) Hr Ht (tick_with utc upcoming _ _ _ _ _ _ Hk Hs Hc)) as [w' [B1 _]].
    exists now, vv, w'. split; [exact Ho|congruence].
  Qed.

  (** A loop is asleep, or over, again and again. *)
  Lemma loop_rests st ev i n t up k : fhist st ev -> calls_move st -> just fstep (fleet_step_of i) st ev ->
    task_of i (st n) = Some t -> tkof t = (Some up, Some k) ->
    forall j, (n <= j)%nat -> exists m, (j <= m)%nat /\ dist_of i (st m) = 0%nat.
  Proof.
    intros H Hg Hj Ht0 Hk0 j0 Lj0.
    assert (K : forall j, (n <= j)%nat -> dist_of i (st j) <> 0%nat -> exists m, (j <= m)%nat /\ (dist_of i (st m) < dist_of i (st j))%nat).
    2: { destruct (comes_down (fun d => dist_of i (st (j0 + d)%nat))) with (n := 0%nat) as [d [_ Ed]].
         - intros d Hd. destruct (K (j0 + d)%nat ltac:(lia) Hd) as [m [L D]]. exists (m - j0)%nat. replace (j0 + (m - j0))%nat with m by lia. split; [lia|exact D].
         - exists (j0 + d)%nat. split; [lia|exact Ed]. }
    intros j Lj Hd. destruct (loop_stays st ev i n t up k H Ht0 Hk0 j Lj) as [kj Ht]. set (tj := with_ticker kj t) in *.
    assert (Hk : tkof tj = (Some up, Some kj)) by (eapply with_ticker_of; exact Hk0).
    assert (Ed : dist_of i (st j) = dist (tk_phase kj)) by (unfold dist_of; rewrite Ht, Hk; reflexivity). rewrite Ed in Hd |- *.
    assert (G : forall j', (j <= j')%nat -> (forall m, (j' <= m)%nat -> task_of i (st m) = Some tj -> possible fstep (fleet_step_of i) (st m)) ->
              exists m, (j <= m)%nat /\ (dist_of i (st m) < dist (tk_phase kj))%nat).
    { intros j' Lj' Hp. destruct (Hj j') as [m [L D]]. destruct (loop_waits st ev i j tj up kj H Ht Hk Hd m ltac:(lia)) as [N|[m' [L' D']]]; [|exists m'; split; [lia|exact D']].
      destruct D as [D|D]; [|destruct (D (Hp m L N))].
      destruct (loop_becomes _ _ _ _ _ _ _ _ (proj2 H m) (fnodup st ev H m) N Hk) as [k' [N' [[B _]|[a [Hs _]]]]]; [destruct (B D)|].
      exists (S m). split; [lia|]. unfold dist_of. rewrite N', (with_ticker_of utc upcoming tj up kj k' Hk). cbn [snd]. eapply (dist_step utc upcoming show); eassumption. }
    destruct (tk_phase kj) as [|nx u|nx|u| |] eqn:Ep; cbn in Hd; try congruence; clear Hd.
    - apply (G j (le_n _)). intros m L N.
      assert (exists k', tick_step up kj (Compute (tk_clock kj) (tk_clock kj)) = Some k') as [k' Hs].
      { unfold tick_step. rewrite Ep, Z.leb_refl. cbn [andb]. destruct (up (tk_clock kj)); eauto. }
      eapply (can_tick 0 _ _ _ _ _ _ _ (FCompute i _ _)); [exact (freached st ev H m)|exact N|exact Hk|exact Hs|right; discriminate|reflexivity|reflexivity].
    - set (turn := length (firings (ta_body tj))).
      set (own_asks := fun w : fleet => filter (fun a => Nat.eqb (ak_task a) i && Nat.eqb (ak_turn a) turn) (fl_asks w)).
      destruct (all_return st ev H Hg (map ak_call (own_asks (st j))) j) as [j' [Lj' R]].
      { intros c Hc. pose proof (turn_asks utc upcoming show hash ident t0 _ _ i tj turn (freach st ev H j) Ht) as E.
        apply in_map_iff in Hc. destruct Hc as [a [<- Ha]]. apply (in_map (fun a => option_map qc_op (nth_error (fcalls (st j)) (ak_call a)))) in Ha.
        unfold own_asks in Ha. rewrite E in Ha. apply in_map_iff in Ha. destruct Ha as [y [Ey _]].
        destruct (nth_error (fcalls (st j)) (ak_call a)) as [x|]; [eauto|discriminate]. }
      apply (G j' Lj'). intros m L N.
      assert (Ea : own_asks (st m) = own_asks (st j)).
      { destruct (proj1 (fgrown st ev H j m ltac:(lia))) as [l E]. unfold own_asks. rewrite E, filter_app.
        assert (Hlen : length (own_asks (st m)) = length (own_asks (st j))).
        { pose proof (turn_asks utc upcoming show hash ident t0 _ _ i tj turn (freach st ev H j) Ht) as E1.
          pose proof (turn_asks utc upcoming show hash ident t0 _ _ i tj turn (freach st ev H m) N) as E2.
          apply (f_equal (@length _)) in E1, E2. rewrite !map_length in E1, E2. unfold own_asks. congruence. }
        unfold own_asks in Hlen. rewrite E, filter_app, app_length in Hlen.
        destruct (filter (fun a => Nat.eqb (ak_task a) i && Nat.eqb (ak_turn a) turn) l); [apply app_nil_r|cbn [length] in Hlen; lia]. }
      assert (Hdone : forallb answered (answers i turn (st m)) = true).
      { unfold answers. fold (own_asks (st m)). rewrite Ea. apply forallb_forall. intros r Hr. apply in_map_iff in Hr. destruct Hr as [a [<- Ha]].
        destruct (still_back st ev j' m _ H L (R (ak_call a) (in_map ak_call _ _ Ha))) as [o [r Ex]].
        rewrite Ex. reflexivity. }
      assert (Hs : forall b, exists k', tick_step up kj (Acted (tk_clock kj) b) = Some k').
      { intro b. unfold tick_step. rewrite Ep, Z.leb_refl. destruct b; [eauto|]. destruct (0 <? _); eauto. }
      destruct (Hs (existsb panics (answers i turn (st m)))) as [k' Hs'].
      eapply (can_tick 0 _ _ _ _ _ _ _ (FActed i (tk_clock kj))); [exact (freached st ev H m)|exact N|exact Hk|exact Hs'|right; discriminate| |reflexivity].
      cbn [fleet_step]. unfold fleet_acted. rewrite N. fold turn. cbn zeta. rewrite Hdone. destruct (existsb panics _); reflexivity.
    - apply (G j (le_n _)). intros m L N.
      assert (exists k', tick_step up kj (Rested (Z.max (tk_clock kj) u)) = Some k') as [k' Hs].
      { unfold tick_step. rewrite Ep. replace (tk_clock kj <=? Z.max (tk_clock kj) u) with true by (symmetry; apply Z.leb_le; lia).
        replace (u <=? Z.max (tk_clock kj) u) with true by (symmetry; apply Z.leb_le; lia). eexists. reflexivity. }
      eapply (can_tick 0 _ _ _ _ _ _ _ (FRested i _)); [exact (freached st ev H m)|exact N|exact Hk|exact Hs|right; discriminate|reflexivity|reflexivity].
  Qed.

  Lemma first_more k m (ev : nat -> time * fev) : (k <= m)%nat -> exists l, first m ev = first k ev ++ l.
  Proof. intro L. unfold first. replace m with (k + (m - k))%nat by lia. rewrite seq_app, map_app. eauto. Qed.
  Lemma first_program k m (ev : nat -> time * fev) h q : (k <= m)%nat -> shut h (program_of q (first k ev)) -> shut h (program_of q (first m ev)).
  Proof.
    intros L [now [a [Hi Hs]]]. exists now, a. split; [|exact Hs]. destruct (first_more k m ev L) as [l ->].
    unfold program_of in *. rewrite flat_map_app. apply in_or_app. auto.
  Qed.
  Lemma first_connected k m (ev : nat -> time * fev) b q : (k <= m)%nat -> nth_error (connected (first k ev)) b = Some q -> nth_error (connected (first m ev)) b = Some q.
  Proof.
    intros L Hb. destruct (first_more k m ev L) as [l ->]. unfold connected in *. rewrite flat_map_app, nth_error_app1; [exact Hb|].
    eapply nth_lt. exact Hb.
  Qed.

  Theorem loop_ends st ev i n t q up k : fhist st ev -> calls_move st -> just fstep (fleet_step_of i) st ev -> compassionate fstep (eq (FLeave i)) st ev ->
    task_of i (st n) = Some t -> tkof t = (Some up, Some k) -> nth_error (connected (first n ev)) (ta_backend t) = Some q -> shut (ta_token t) (program_of q (first n ev)) ->
    exists m t', (n <= m)%nat /\ task_of i (st m) = Some t' /\ (ended t' \/ died t').
  Proof.
    intros H Hg Hj Hc Ht Hk Hq Hs. destruct (Hc n) as [m [L [D|D]]].
    - destruct (loop_stays st ev i n t up k H Ht Hk m L) as [km N].
      destruct (loop_becomes _ _ _ _ _ _ _ _ (proj2 H m) (fnodup st ev H m) N (with_ticker_of utc upcoming _ _ _ _ Hk)) as [k' [N' [[B _]|[a [Hst Hd]]]]].
      + destruct B. rewrite <- D. reflexivity.
      + rewrite <- D in Hd. cbn in Hd. destruct a; try destruct Hd. exists (S m). eexists. split; [lia|]. split; [exact N'|].
        eapply with_ticker_end; [eapply with_ticker_of, with_ticker_of; exact Hk|]. left.
        unfold tick_step in Hst. destruct (tk_phase km); try discriminate. injection Hst as <-. reflexivity.
    - destruct (loop_rests st ev i n t up k H Hg Hj Ht Hk m L) as [m' [L' Z']]. destruct (loop_stays st ev i n t up k H Ht Hk m' ltac:(lia)) as [km N].
      assert (Hkm : tkof (with_ticker km t) = (Some up, Some km)) by (eapply with_ticker_of; exact Hk).
      unfold dist_of in Z'. rewrite N, Hkm in Z'. cbn [snd] in Z'.
      assert (E : (exists nx u, tk_phase km = Sleeping nx u) \/ tk_phase km = Stopped \/ tk_phase km = Crashed) by (destruct (tk_phase km); try discriminate; eauto).
      destruct E as [[nx [u E]]|E].
      + exfalso. apply (D m' L').
        assert (Hcan : stopped i (st m') = true).
        { apply (shut_tokens utc upcoming show hash ident t0 _ _ i _ q (freach st ev H m') N); cbn [with_ticker ta_token ta_backend]; [eapply first_connected; [|exact Hq]; lia|eapply first_program; [|exact Hs]; lia]. }
        assert (exists k', tick_step up km Cancel = Some k') as [k' Hst] by (unfold tick_step; rewrite E; eauto).
        destruct (do_tick utc upcoming show hash ident t0 0 i _ _ Cancel _ (freached st ev H m') N (tick_with utc upcoming _ _ _ _ _ _ Hkm Hst (or_introl Hcan))) as [w' [B1 _]].
        exists 0, (FLeave i), w'. split; [reflexivity|exact B1].
      + exists m'. eexists. split; [lia|]. split; [exact N|]. eapply with_ticker_end; [exact Hkm|exact E].
  Qed.

  Theorem told_ends st ev i n t q : fhist st ev -> calls_move st -> just fstep (fleet_step_of i) st ev -> compassionate fstep (eq (FLeave i)) st ev ->
    task_of i (st n) = Some t -> nth_error (connected (first n ev)) (ta_backend t) = Some q -> shut (ta_token t) (program_of q (first n ev)) -> limits_ok t ->
    exists m t', (n <= m)%nat /\ task_of i (st m) = Some t' /\ (ended t' \/ died t').
  Proof.
    intros H Hg Hj Hc Ht Hq Hs Hlim. destruct (ta_body t) as [e wk|e sc z d k|sc cfg k] eqn:Eb.
    - pose proof (proj2 (shut_tokens utc upcoming show hash ident t0 _ _ i t q (freach st ev H n) Ht Hq)) as Hw. rewrite Eb in Hw. destruct (w_life wk) eqn:El.
      2,3: exists n, t; split; [lia|]; split; [exact Ht|]; unfold ended, died; rewrite Eb; auto.
      eapply worker_ends; [exact H|exact Hg|exact Hj|exact Ht|exact Eb|exact (Hw eq_refl Hs)|]. intros l El'. apply (Hlim e l); [unfold purpose; rewrite Eb; reflexivity|exact El'].
    - eapply loop_ends; [exact H|exact Hg|exact Hj|exact Hc|exact Ht|unfold ticker_of; rewrite Eb; reflexivity|exact Hq|exact Hs].
    - eapply loop_ends; [exact H|exact Hg|exact Hj|exact Hc|exact Ht|unfold ticker_of; rewrite Eb; reflexivity|exact Hq|exact Hs].
  Qed.

  (** * What has become of a job *)
  Lemma seen_later st ev i j t e wk : fhist st ev -> task_of i (st j) = Some t -> ta_body t = BWorker e wk ->
    forall m, (j <= m)%nat -> exists wk', task_of i (st m) = Some (mk_task (ta_backend t) (ta_token t) (BWorker e wk')) /\ incl (w_seen wk) (w_seen wk').
  Proof.
    intros H Ht Eb m L. induction L as [|m L [wk1 [N1 I1]]].
    - exists wk. split; [destruct t; cbn in *; subst; exact Ht|]. intros o Ho. exact Ho.
    - destruct (fworker_becomes _ _ _ _ _ _ _ _ (proj2 H m) (fnodup st ev H m) N1 eq_refl) as [wk' [N2 B]]. exists wk'. split; [exact N2|].
      destruct B as [[_ ->]|[[_ Hs]|[a [Hs _]]]]; [exact I1|intros o Ho; eapply seen_step; [exact Hs|auto]..].
  Qed.

  Theorem job_done st ev i n k t e wk j : fhist st ev -> calls_move st -> just fstep (fleet_step_with i n) st ev ->
    task_of i (st k) = Some t -> ta_body t = BWorker e wk -> In (Taken n (MJob j)) (w_seen wk) ->
    exists m t' wk', (k <= m)%nat /\ task_of i (st m) = Some t' /\ ta_body t' = BWorker e wk'
      /\ (w_life wk' = Crashed_worker
          \/ unreadable (xe_codec e) j
          \/ exists a x r, In (Reported n (qc_op x)) (w_seen wk') /\ In a (fl_asks (st m)) /\ ak_task a = i /\ ak_turn a = n
                /\ nth_error (fcalls (st m)) (ak_call a) = Some x /\ qc_pc x = QDone (RUnit r)).
  Proof.
    intros H Hg Hj Ht Eb Hi.
    assert (Hs : In (Taken n (MJob j)) (story n wk)) by (apply story_in; auto).
    assert (Hn : (n < w_next wk)%nat).
    { destruct (task_worker utc upcoming show hash ident t0 _ _ i t e wk (freach st ev H k) Ht Eb) as [wes [_ W]]. eapply story_lt; [exact W|]. intro E. rewrite E in Hs. destruct Hs. }
    destruct (job_goes st ev i n H Hg Hj k) as [m [L Z']]; [exists t, e, wk; auto|].
    destruct (seen_later st ev i k t e wk H Ht Eb m L) as [wk' [N I']].
    exists m. eexists. exists wk'. split; [exact L|]. split; [exact N|]. split; [reflexivity|].
    assert (Hw : winv (xe_codec e) (xe_fns e) show wk') by (destruct (task_worker utc upcoming show hash ident t0 _ _ i _ e wk' (freach st ev H m) N eq_refl) as [wes [_ W]]; exact W).
    assert (Hst : In (Taken n (MJob j)) (story n wk')) by (apply story_in; auto).
    assert (Hn' : (n < w_next wk')%nat) by (eapply story_lt; [exact Hw|]; intro E; rewrite E in Hst; destruct Hst).
    assert (D : w_life wk' = Crashed_worker \/ (w_life wk' <> Crashed_worker /\ flight_of n (w_flights wk') = None)).
    { destruct (w_life wk') eqn:El; [right|right|left; reflexivity]; (split; [discriminate|]).
      - unfold far, afar in Z'. rewrite N in Z'. cbn [ta_body] in Z'. rewrite El in Z'.
        destruct (flight_of n (w_flights wk')) as [ph|]; [unfold weight in Z'; cbn in Z'; destruct ph; discriminate|reflexivity].
      - destruct Hw as [_ [_ [_ [_ [W5 _]]]]]. rewrite (W5 El). reflexivity. }
    destruct D as [D|[Hl Hnone]]; [auto|]. right.
    assert (C : course (xe_codec e) (xe_fns e) show n None (story n wk')).
    { destruct Hw as [_ [_ [_ [W4 _]]]]. specialize (W4 n Hn'). rewrite Hnone in W4. destruct (w_life wk'); [exact W4|exact W4|congruence]. }
    destruct (course_end show e n _ j C Hst) as [K|[op [K Hop]]]; [auto|right]. apply story_in in K. destruct K as [K _].
    pose proof (turn_asks utc upcoming show hash ident t0 _ _ i _ n (freach st ev H m) N) as E. cbn [ta_body owed] in E.
    assert (Hin : In (Some op) (map (fun x => Some (snd x)) (filter (fun x => Nat.eqb (fst x) n) (reports wk')))).
    { apply in_map_iff. exists (n, op). split; [reflexivity|]. apply filter_In. split; [|cbn; apply Nat.eqb_refl].
      unfold reports. rewrite <- in_rev. apply in_flat_map. exists (Reported n op). split; [exact K|cbn; auto]. }
    rewrite <- E in Hin. apply in_map_iff in Hin. destruct Hin as [a [Ea Ha]]. apply filter_In in Ha. destruct Ha as [Ha Hb].
    apply Bool.andb_true_iff in Hb. destruct Hb as [Hb1 Hb2]. apply Nat.eqb_eq in Hb1, Hb2.
    destruct (nth_error (fcalls (st m)) (ak_call a)) as [x|] eqn:Ec; [|discriminate]. injection Ea as Eo. subst op.
    destruct (FleetLive.covered_thm utc upcoming show hash ident t0 _ _ (freach st ev H m) a Ha) as [t1 [N0 C0]]. rewrite Hb1 in N0. rewrite N in N0. injection N0 as <-. rewrite Hb2 in C0.
    destruct C0 as [[C0|[op C0]]|[x' [r [X1 X2]]]]; [destruct (Hl C0)|congruence|].
    assert (x' = x) as -> by congruence.
    assert (Hfit : answer_fits (qc_op x) r).
    { destruct (parts_thm utc upcoming show hash ident t0 _ _ (freach st ev H m)) as [K' _]. rewrite K' in Ec.
      destruct (projection ident (n_found t0) (net_labels (fl_log (st m)))) as [qs [Q1 _]]. rewrite Q1 in Ec.
      apply (answers_fit ident t0 qs Hsound (ak_call a)). unfold finished. etransitivity; [exact Ec|]. rewrite <- X2. destruct x; reflexivity. }
    assert (Hr : exists r', r = RUnit r') by (destruct (qc_op x); try destruct Hop; exact Hfit).
    destruct Hr as [r' ->]. exists a, x, r'. auto 10.
  Qed.

  (** * What is over stays so *)
  Lemma over_stays st ev i n t : fhist st ev -> task_of i (st n) = Some t -> ended t \/ died t ->
    forall m, (n <= m)%nat -> task_of i (st m) = Some t.
  Proof.
    intros H Ht D m L. induction L as [|m L IH]; [exact Ht|]. destruct (fstep_becomes _ _ _ _ _ _ (proj2 H m) (fnodup st ev H m) IH) as [t' [N B]]. rewrite N. f_equal.
    destruct B as [[_ [-> | ->]]|[[a [Hs _]]|[a [Hs _]]]].
    - reflexivity.
    - unfold App.told. rewrite Nat.eqb_refl. unfold ended, died in D. destruct t as [tb tk [e wk|e sc z d k|sc cfg k]]; cbn [ta_body ta_backend ta_token] in *; try reflexivity.
      unfold worker_step. destruct D as [-> | ->]; reflexivity.
    - exfalso. unfold worker_task_step, ended, died in *. destruct (ta_body t) as [e wk|e sc z d k|sc cfg k]; [|destruct a; discriminate..].
      assert (E : wstep e wk a = None) by (unfold worker_step; destruct D as [-> | ->]; reflexivity). rewrite E in Hs. destruct a; discriminate.
    - exfalso. unfold tick_task_step, ended, died in *.
      assert (E : forall up k, tk_phase k = Stopped \/ tk_phase k = Crashed -> tick_step up k a = None) by (intros up k [E|E]; unfold tick_step; rewrite E; reflexivity).
      destruct (ta_body t) as [e wk|e sc z d k|sc cfg k]; [|rewrite (E _ _ D) in Hs|rewrite (E _ _ D) in Hs];
        destruct a; try discriminate; match type of Hs with match ?x with _ => _ end = _ => destruct x end; discriminate.
  Qed.
  Theorem all_over st ev n : fhist st ev -> calls_move st -> (forall i, just fstep (fleet_step_of i) st ev) -> (forall i, compassionate fstep (eq (FLeave i)) st ev) ->
    (forall i t, task_of i (st n) = Some t -> limits_ok t) ->
    exists m, (n <= m)%nat /\ forall i t q, task_of i (st n) = Some t -> nth_error (connected (first n ev)) (ta_backend t) = Some q ->
      shut (ta_token t) (program_of q (first n ev)) -> exists t', task_of i (st m) = Some t' /\ (ended t' \/ died t').
  Proof.
    intros H Hg Hj Hc Hlim.
    assert (K : forall p, exists m, (n <= m)%nat /\ forall i t q, (i < p)%nat -> task_of i (st n) = Some t -> nth_error (connected (first n ev)) (ta_backend t) = Some q ->
                shut (ta_token t) (program_of q (first n ev)) -> exists t', task_of i (st m) = Some t' /\ (ended t' \/ died t')).
    { induction p as [|p [m [L IH]]]; [exists n; split; [lia|intros i t q Hi; lia]|].
      destruct (task_of p (st n)) as [t|] eqn:Et.
      2: { exists m. split; [exact L|]. intros i t q Hi Hit. destruct (Nat.eq_dec i p) as [->|Hne]; [congruence|]. apply IH; [lia|exact Hit]. }
      assert (Hq : exists q, nth_error (connected (first n ev)) (ta_backend t) = Some q).
      { destruct (parts_thm utc upcoming show hash ident t0 _ _ (freach st ev H n)) as [_ [_ [_ [_ [P5 _]]]]].
        destruct (task_where p (st n) t Et) as [q' [i [s [Hg' [Hs Hi]]]]]. exists q'. exact (P5 q' s t Hs (nth_error_In _ _ Hi)). }
      destruct Hq as [q0 Hq0]. pose proof (proj1 (shut_tokens utc upcoming show hash ident t0 _ _ p t q0 (freach st ev H n) Et Hq0)) as Hsh.
      destruct (stopped p (st n)) eqn:Dec.
      - destruct (told_ends st ev p n t q0 H Hg (Hj p) (Hc p) Et Hq0 (proj1 Hsh eq_refl) (Hlim p t Et)) as [m' [t' [L' [N' D']]]].
        exists (Nat.max m m'). split; [lia|]. intros i t1 q Hi Hit Hq Hs. destruct (Nat.eq_dec i p) as [->|Hne].
        + exists t'. split; [|exact D']. eapply over_stays; [exact H|exact N'|exact D'|lia].
        + destruct (IH i t1 q ltac:(lia) Hit Hq Hs) as [t2 [N1 D1]]. exists t2. split; [|exact D1]. eapply over_stays; [exact H|exact N1|exact D1|lia].
      - exists m. split; [exact L|]. intros i t1 q Hi Hit Hq Hs. destruct (Nat.eq_dec i p) as [->|Hne]; [|apply (IH i t1 q ltac:(lia) Hit Hq Hs)].
        assert (t1 = t) as -> by congruence. assert (q0 = q) as -> by congruence. apply Hsh in Hs. congruence. }
    destruct (K (length (fl_places (st n)))) as [m [L G]]. exists m. split; [exact L|]. intros i t q Hit Hq Hs. apply (G i t q); [|exact Hit|exact Hq|exact Hs].
    apply nth_error_Some. unfold task_of in Hit. destruct (nth_error (fl_places (st n)) i); congruence.
  Qed.

  (** * How many steps a worker takes after it has been told to stop *)
  Definition steps (i : nat) (ev : fev) : bool :=
    match ev with
    | FClose k | FStart k _ | FEnd k _ _ _ _ | FAnswer k _ | FFinish k => Nat.eqb k i
    | _ => false
    end.
  Lemma steps_of i ev : steps i ev = true -> fleet_step_of i ev.
  Proof. destruct ev; cbn; try discriminate; apply Nat.eqb_eq. Qed.
  Lemma fuel_bound i : forall es w w' t e wk, reached utc upcoming show hash ident t0 w -> frun w es = Some w' -> task_of i w = Some t -> ta_body t = BWorker e wk -> w_cancelled wk = true ->
    (length (filter (fun x => steps i (snd x)) es) <= fuel wk)%nat.
  Proof.
    induction es as [|[now ev] es IH]; intros w w' t e wk Hr H Ht Eb Hc; [cbn; lia|]. cbn [fleet_run] in H. destruct (fstep now w ev) as [w1|] eqn:E; [|discriminate].
    assert (Hr1 : reached utc upcoming show hash ident t0 w1) by (eapply reached_more; [exact Hr|apply run1; exact E]).
    destruct (stop_step _ _ _ _ _ _ _ _ E (reached_nodup utc upcoming show hash ident t0 w Hr) Ht Eb Hc) as [wk' [N [C D]]]. specialize (IH _ _ _ _ _ Hr1 H N eq_refl C). cbn [filter snd].
    destruct (steps i ev) eqn:Es; destruct D as [[D1 D2]|D].
    - destruct (D2 (steps_of _ _ Es)).
    - cbn [length]. lia.
    - rewrite (alike_fuel _ _ D1) in IH. exact IH.
    - lia.
  Qed.
  Lemma stopped_stays i : forall es w w' t e wk, reached utc upcoming show hash ident t0 w -> frun w es = Some w' -> task_of i w = Some t -> ta_body t = BWorker e wk -> w_life wk <> Working ->
    filter (fun x => steps i (snd x)) es = [].
  Proof.
    induction es as [|[now ev] es IH]; intros w w' t e wk Hr H Ht Eb Hc; [reflexivity|]. cbn [fleet_run] in H. destruct (fstep now w ev) as [w1|] eqn:E; [|discriminate].
    assert (Hr1 : reached utc upcoming show hash ident t0 w1) by (eapply reached_more; [exact Hr|apply run1; exact E]).
    destruct (fworker_becomes _ _ _ _ _ _ _ _ E (reached_nodup utc upcoming show hash ident t0 w Hr) Ht Eb) as [wk' [N B]].
    assert (Hno : forall a, wstep e wk a = None) by (intro a; unfold worker_step; destruct (w_life wk); congruence).
    destruct B as [[Hn ->]|[[_ Hs]|[a [Hs _]]]]; [|rewrite Hno in Hs; discriminate..].
    cbn [filter snd]. destruct (steps i ev) eqn:Es; [destruct (Hn (steps_of _ _ Es))|]. exact (IH _ _ _ _ _ Hr1 H N eq_refl Hc).
  Qed.
End Fair.

