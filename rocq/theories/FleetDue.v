(** Lemmas about jobs that wait in a database shared by processes: they are taken. *)
From Coq Require Import Lia Permutation.
From Verif Require Import Base Chrono Types TypesProofs Query QueryProofs Memory MemSpec MemProofs MemConc MemWake PgRow PgQuery Pg PgSpec PgProofs PgOps PgConc PgConcSpec PgConcPast PgConcProofs PgConcEnd PgConcLive
  PgListen PgListenProofs Codec Builder Runner RunnerSpec WorkerProofs Ticker Pruner ApiSpec ApiProofs App AppSpec AppProofs AppEnd
  World WorldSpec WorldProofs WorldInv WorldThms WorldLive WorldFair Fleet FleetSpec FleetLink FleetInv FleetThms FleetLive FleetWork FairSpec FleetFair WorldDue.

(** How far a stream is from loading, once the clock is past [T] and a job scheduled by then waits. *)
Definition prk (T : time) (ph : pphase) : nat :=
  match ph with
  | PGot (Some t) => if t <=? T then 1 else 7
  | PGot None => 7
  | PLoading _ _ _ _ => 6
  | PYield _ => 5
  | PSelect _ _ _ => 4
  | PWait _ _ _ _ => 3
  | PCheck => 2
  | PTry _ _ _ => 0
  end.

Section Due.
  Context {Schedule Zone : Type}.
  Variable utc : Zone.
  Variable upcoming : Schedule -> Zone -> time -> option time.
  Variable show : Z -> string.
  Variable hash : forall e : executor, xe_data e -> Z.
  Variable ident : option Z -> option string -> list status -> Z.
  Variable t0 : tbl.
  Hypothesis Hsound : sound_table t0.
  Notation fleet := (fleet Schedule Zone).
  Notation tsk := (task Schedule Zone).
  Notation fev := (fleet_event Schedule Zone).
  Notation onn := (on_node utc upcoming show).
  Notation net := (on_net (Schedule := Schedule) (Zone := Zone) ident).
  Notation fstep := (fleet_step utc upcoming show hash ident).
  Notation frun := (fleet_run utc upcoming show hash ident).
  Notation wstep e := (worker_step (xe_codec e) (xe_fns e) show (ex_max_concurrency (xe_consts e))).
  Notation fcalls w := (q_calls (n_db (fl_net w))).
  Notation rows w := (t_rows (q_tbl (n_db (fl_net w)))).
  Notation fhist := (fhist utc upcoming show hash ident t0).
  Notation reached := (FleetLive.reached utc upcoming show hash ident t0).

  (** * One step of the net *)
  Definition of_event (now : time) (w : fleet) (ev : fev) (l : nlabel) : Prop :=
    match l with
    | NDb (QRun i n pick) => n = now /\ ev = FRun i pick
    | NDb (QAbort i e) => ev = FAbort i e
    | NStream k n => n = now /\ exists g, ev = FPoll g /\ nth_error (fl_streams w) g = Some (Some k)
    | NRecv k => exists g, ev = FRecv g /\ nth_error (fl_streams w) g = Some (Some k)
    | NError k => exists g, ev = FError g /\ nth_error (fl_streams w) g = Some (Some k)
    | _ => True
    end.
  Lemma net_labels_app (a b : list (time * deed Schedule Zone)) : net_labels (a ++ b) = net_labels a ++ net_labels b.
  Proof. apply flat_map_app. Qed.
  Lemma nrun_app a : forall s b, nrun ident s (a ++ b) = nrun ident (nrun ident s a) b.
  Proof. induction a as [|l a IH]; intros s b; [reflexivity|]. cbn [app nrun]. apply IH. Qed.
  Lemma net_step now w ev w' : reached w -> fstep now w ev = Some w' ->
    exists ls, fl_net w' = nrun ident (fl_net w) ls /\ forall l, In l ls -> of_event now w ev l.
  Proof.
    intros [es H] Hs. assert (H' : frun (fleet_init t0) (es ++ [(now, ev)]) = Some w').
    { rewrite (frun_app utc upcoming show hash ident), H. cbn [fleet_run]. rewrite Hs. reflexivity. }
    destruct (parts_thm utc upcoming show hash ident t0 _ _ H) as [E _]. destruct (parts_thm utc upcoming show hash ident t0 _ _ H') as [E' _].
    destruct (events_thm utc upcoming show hash ident now w ev w' Hs) as [ad [El K]]. rewrite El, net_labels_app, nrun_app, <- E in E'.
    exists (net_labels ad). split; [exact E'|]. intros l Hl. unfold net_labels in Hl. apply in_flat_map in Hl. destruct Hl as [[n d] [Hd Hl]]. cbn [snd] in Hl.
    destruct d as [q a|l']; [destruct Hl|]. destruct Hl as [->|[]]. clear E E' El H H' Hs.
    destruct ev.
    - destruct K as [-> _]. destruct Hd.
    - destruct K as [_ ->]. destruct Hd as [Hd|[]]. injection Hd as _ <-. exact Logic.I.
    - destruct K as [_ ->]. destruct Hd as [Hd|Hd]; [discriminate|]. apply in_flat_map in Hd. destruct Hd as [t [_ Hd]].
      destruct (ta_body t); [|destruct Hd..]. destruct Hd as [Hd|[]]. injection Hd as _ <-. exact Logic.I.
    - destruct K as [_ ->]. destruct Hd as [Hd|[]]. injection Hd as _ <-. exact Logic.I.
    - subst ad. destruct Hd as [Hd|[]]. injection Hd as _ <-. cbn. auto.
    - subst ad. destruct Hd as [Hd|[]]. injection Hd as _ <-. cbn. auto.
    - subst ad. destruct Hd as [Hd|[]]. injection Hd as _ <-. exact Logic.I.
    - subst ad. destruct Hd as [Hd|[]]. injection Hd as _ <-. exact Logic.I.
    - subst ad. destruct Hd as [Hd|[]]. injection Hd as _ <-. exact Logic.I.
    - destruct K as [q [i [k [_ [K ->]]]]]. destruct Hd as [Hd|Hd].
      + injection Hd as _ <-. cbn. split; [reflexivity|]. eauto.
      + destruct (option_map _ _) as [[| | | | | |[j|er|]]|]; try (destruct Hd; fail); destruct Hd as [Hd|[]]; discriminate.
    - destruct K as [k [K ->]]. destruct Hd as [Hd|[]]. injection Hd as _ <-. cbn. eauto.
    - destruct K as [q [i [k [_ [K [_ ->]]]]]]. destruct Hd as [Hd|[Hd|[]]]; [|discriminate]. injection Hd as _ <-. cbn. eauto.
    - destruct K as [q [i [_ ->]]]. destruct Hd as [Hd|[]]. discriminate.
    - destruct K as [q [i [_ ->]]]. destruct Hd as [Hd|[]]. discriminate.
    - destruct K as [q [i [_ [os [-> _]]]]]. destruct Hd as [Hd|Hd]; [discriminate|]. apply in_map_iff in Hd. destruct Hd as [op [Hd _]]. injection Hd as _ <-. exact Logic.I.
    - destruct K as [q [i [r [_ ->]]]]. destruct Hd as [Hd|[]]. discriminate.
    - destruct K as [q [i [_ ->]]]. destruct Hd as [Hd|[]]. discriminate.
    - destruct K as [q [i [_ ->]]]. destruct Hd as [Hd|[]]. discriminate.
    - destruct K as [q [i [_ [os ->]]]]. destruct Hd as [Hd|Hd]; [discriminate|]. apply in_map_iff in Hd. destruct Hd as [op [Hd _]]. injection Hd as _ <-. exact Logic.I.
    - destruct K as [q [i [_ ->]]]. destruct Hd as [Hd|[]]. discriminate.
    - destruct K as [q [i [r [_ ->]]]]. destruct Hd as [Hd|[]]. discriminate.
    - destruct K as [q [i [_ ->]]]. destruct Hd as [Hd|[]]. discriminate.
  Qed.

  (** A call moves by its own actions and failures only. *)
  Lemma q_keeps s l c x : nth_error (q_calls s) c = Some x -> (forall n pk, l <> QRun c n pk) -> (forall er, l <> QAbort c er) ->
    nth_error (q_calls (fst (qstep ident s l))) c = Some x.
  Proof using.
    clear. intros H H1 H2. destruct l as [o|i n pk|i er]; cbn [qstep].
    - cbn. rewrite nth_error_app1; [exact H|eapply nth_lt; exact H].
    - destruct (nth_error (q_calls s) i) as [d|] eqn:Ei; [|exact H]. destruct (PgConc.action ident i n pk (q_calls s) (q_tbl s) d) as [[t' pc'] evs].
      cbn [fst q_calls]. rewrite nth_set_nth_other; [exact H|]. intros ->. exact (H1 _ _ eq_refl).
    - destruct (nth_error (q_calls s) i) as [d|] eqn:Ei; [|exact H]. cbn [fst q_calls]. rewrite nth_set_nth_other; [exact H|]. intros ->. exact (H2 _ eq_refl).
  Qed.
  Lemma n_keeps s l c x : nth_error (q_calls (n_db s)) c = Some x -> (forall n pk, l <> NDb (QRun c n pk)) -> (forall er, l <> NDb (QAbort c er)) ->
    nth_error (q_calls (n_db (fst (nstep ident s l)))) c = Some x.
  Proof using.
    clear. intros H H1 H2. destruct (db_step_label ident s l) as [qs [-> [_ K]]].
    assert (G : forall o, nth_error (q_calls (qrun ident (n_db s) [QCall o])) c = Some x).
    { intro o. cbn. rewrite nth_error_app1; [exact H|eapply nth_lt; exact H]. }
    destruct l as [q| | | | | | | |].
    1: { subst qs. cbn [qrun]. apply q_keeps; [exact H|intros n pk ->; exact (H1 _ _ eq_refl)|intros er ->; exact (H2 _ eq_refl)]. }
    all: destruct K as [->|[o ->]]; [exact H|apply G].
  Qed.
  Lemma call_keeps now w ev w' c x : reached w -> fstep now w ev = Some w' -> nth_error (fcalls w) c = Some x ->
    (forall pk, ev <> FRun c pk) -> (forall er, ev <> FAbort c er) -> nth_error (fcalls w') c = Some x.
  Proof.
    intros Hr Hs Hc H1 H2. destruct (net_step _ _ _ _ Hr Hs) as [ls [-> Hl]]. clear Hs Hr. revert Hc Hl. generalize (fl_net w).
    induction ls as [|l ls IH]; intros s Hc Hl; [exact Hc|]. cbn [nrun]. apply IH; [|intros l' K; apply Hl; right; exact K].
    pose proof (Hl l (or_introl eq_refl)) as Ho. apply n_keeps; [exact Hc|intros n pk ->|intros er ->]; cbn in Ho.
    - exact (H1 _ (proj2 Ho)).
    - exact (H2 _ Ho).
  Qed.

  (** A stream moves by its own polls, messages and failures only. *)
  Definition moves_stream (k : nat) (l : nlabel) : Prop := match l with NStream k' _ | NRecv k' | NError k' => k' = k | _ => False end.
  Lemma s_keeps s l k st : nth_error (n_streams s) k = Some st -> ~ moves_stream k l ->
    exists st', nth_error (n_streams (fst (nstep ident s l))) k = Some st' /\ s_phase st' = s_phase st.
  Proof using.
    clear. intros H Hm. destruct l as [q| |c|c|c|c ex|k' n|k'|k']; cbn [nstep]; cbn in Hm.
    - unfold db_step. destruct (qstep ident (n_db s) q) as [db evs]. cbn. eauto.
    - cbn. eauto.
    - destruct (nth_error (n_clients s) c) as [[[] [|n rest]]|]; cbn; eauto. destruct (note_readable n); cbn; [|eauto].
      rewrite nth_error_map, H. cbn. eexists. split; [reflexivity|]. unfold pass_on. destruct (_ && _); reflexivity.
    - destruct (nth_error (n_clients s) c); cbn; eauto.
    - destruct (nth_error (n_clients s) c); cbn; eauto.
    - destruct (nth_error (n_clients s) c); cbn; [|eauto]. exists st. rewrite nth_error_app1; [auto|eapply nth_lt; exact H].
    - destruct (nth_error (n_streams s) k') as [s0|]; [|eauto]. destruct (pstream_step n (n_db s) k' s0) as [[ph call] evs]. cbn.
      exists st. rewrite nth_set_nth_other by congruence. auto.
    - destruct (nth_error (n_streams s) k') as [[c ex [|m q] [| | | | | |]]|]; cbn; eauto. exists st. rewrite nth_set_nth_other by congruence. auto.
    - destruct (nth_error (n_streams s) k') as [[c ex q [| | | | | |]]|]; cbn; eauto. exists st. rewrite nth_set_nth_other by congruence. auto.
  Qed.
  Lemma stream_keeps now w ev w' g k st : reached w -> fstep now w ev = Some w' -> nth_error (fl_streams w) g = Some (Some k) ->
    (forall g', nth_error (fl_streams w) g' = Some (Some k) -> g' = g) ->
    nth_error (n_streams (fl_net w)) k = Some st -> ev <> FPoll g -> ev <> FRecv g -> ev <> FError g ->
    exists st', nth_error (n_streams (fl_net w')) k = Some st' /\ s_phase st' = s_phase st.
  Proof.
    intros Hr Hs Hg Hu Hk H1 H2 H3. destruct (net_step _ _ _ _ Hr Hs) as [ls [-> Hl]]. clear Hs Hr. revert st Hk Hl. generalize (fl_net w).
    induction ls as [|l ls IH]; intros s st Hk Hl; [eauto|]. cbn [nrun].
    destruct (s_keeps s l k st Hk) as [st1 [K1 E1]].
    { pose proof (Hl l (or_introl eq_refl)) as Ho. intro Hm. destruct l as [q| |c|c|c|c ex|k' n|k'|k']; cbn in Hm, Ho; try destruct Hm.
      - destruct Ho as [_ [g' [-> Hg']]]. apply H1. f_equal. apply Hu, Hg'.
      - destruct Ho as [g' [-> Hg']]. apply H2. f_equal. apply Hu, Hg'.
      - destruct Ho as [g' [-> Hg']]. apply H3. f_equal. apply Hu, Hg'. }
    destruct (IH _ st1 K1 ltac:(intros l' K; apply Hl; right; exact K)) as [st' [K2 E2]]. exists st'. split; [exact K2|congruence].
  Qed.

  (** * Rows in line *)
  Lemma in_line_iff P ex (w : fleet) r : In r (in_line P ex w) <-> In r (rows w) /\ waits_for ex r /\ r_priority r <= P.
  Proof using.
    clear. unfold in_line. rewrite filter_In, !andb_true_iff, orb_true_iff, !String.eqb_eq, Z.leb_le. unfold waits_for. tauto.
  Qed.
  Lemma ids_iff P ex (w : fleet) id : In id (ids_in_line P ex w) <-> exists r, In r (rows w) /\ r_id r = id /\ waits_for ex r /\ r_priority r <= P.
  Proof using.
    clear. unfold ids_in_line. rewrite in_map_iff. split.
    - intros [r [E K]]. apply in_line_iff in K. exists r. tauto.
    - intros [r [K1 [K2 K3]]]. exists r. split; [exact K2|]. apply in_line_iff. tauto.
  Qed.
  Lemma nodup_filter_ids f : forall l : list row, NoDup (map r_id l) -> NoDup (map r_id (filter f l)).
  Proof using.
    clear. induction l as [|r l IH]; intro H; [exact H|]. inversion H as [|? ? H1 H2]. subst. cbn [filter]. destruct (f r); [|apply IH, H2].
    cbn [map]. constructor; [|apply IH, H2]. intro K. apply H1. apply in_map_iff in K. destruct K as [r' [E K]]. apply filter_In in K. rewrite <- E. apply in_map, K.
  Qed.
  Lemma ids_nodup P ex w : reached w -> NoDup (ids_in_line P ex w).
  Proof. intro Hr. apply nodup_filter_ids. exact (db_nodup utc upcoming show hash ident t0 Hsound w Hr). Qed.
  Lemma same_row w r r' : reached w -> In r (rows w) -> In r' (rows w) -> r_id r = r_id r' -> r = r'.
  Proof.
    intros Hr H H' E. pose proof (db_nodup utc upcoming show hash ident t0 Hsound w Hr) as Hn.
    pose proof (find_row_in _ _ Hn H) as F. pose proof (find_row_in _ _ Hn H') as F'. rewrite E in F. congruence.
  Qed.
  Lemma run_db now w c pk w' : fstep now w (FRun c pk) = Some w' -> n_db (fl_net w') = fst (qstep ident (n_db (fl_net w)) (QRun c now pk)).
  Proof. cbn [fleet_step]. intro H. injection H as <-. unfold on_net. cbn [fl_net nstep]. unfold db_step. destruct (qstep ident (n_db (fl_net w)) (QRun c now pk)) as [db evs]. reflexivity. Qed.
  Lemma held_drops P ex now w c pk w' ex' began id : reached w -> fstep now w (FRun c pk) = Some w' ->
    nth_error (fcalls w) c = Some (mk_qcall (OpLoad ex') (QHeld began id)) ->
    (forall r, In r (in_line P ex w) -> 0 <= r_attempt r < 2147483647) -> In id (ids_in_line P ex w) -> ~ In id (ids_in_line P ex w').
  Proof.
    intros Hr Hs Hc Ha Hi K. pose proof (db_nodup utc upcoming show hash ident t0 Hsound w Hr) as Hn.
    apply ids_iff in Hi. destruct Hi as [r [R1 [R2 [R3 R4]]]]. specialize (Ha r ltac:(apply in_line_iff; auto)).
    apply ids_iff in K. destruct K as [x [X1 [X2 [X3 X4]]]]. rewrite (run_db _ _ _ _ _ Hs) in X1. cbn [qstep] in X1. rewrite Hc in X1.
    unfold PgConc.action in X1. cbn [qc_op qc_pc load_action] in X1. pose proof (find_row_in _ _ Hn R1) as F. rewrite R2 in F. rewrite F in X1.
    assert (Et : pg_take began r = Some (put_status "executing" (put_attempted_at (Some (pg_time began)) (put_attempt (r_attempt r + 1) r)))).
    { unfold pg_take, int4. replace (in_i32 (r_attempt r + 1)) with true by (symmetry; apply in_i32_spec; lia). reflexivity. }
    apply in_split in R1. destruct R1 as [pre [post Es]]. rewrite Es in Hn, X1. rewrite <- R2 in X1.
    rewrite (update_rows_one pre r post _ _ Et Hn), Et in X1. cbn [fst q_tbl t_rows] in X1.
    assert (Hpp : forall y, In y (pre ++ post) -> r_id y <> r_id r).
    { rewrite map_app in Hn. cbn [map] in Hn. apply NoDup_remove_2 in Hn. intros y Hy E. apply Hn. rewrite <- map_app, <- E. apply in_map, Hy. }
    apply in_app_or in X1. destruct X1 as [X1|[<-|X1]].
    - apply (Hpp x); [apply in_or_app; auto|congruence].
    - destruct X3 as [[X3|X3] _]; discriminate X3.
    - apply (Hpp x); [apply in_or_app; auto|congruence].
  Qed.

  Lemma ready_earlier T now ex r r' : pg_ready now ex r = true -> waits_for ex r' -> r_scheduled_at r' <= Z.max T (r_scheduled_at r) -> T <= now -> pg_ready now ex r' = true.
  Proof using.
    clear. intros Hd Hw Hm HT. destruct (Z.max_spec T (r_scheduled_at r)) as [[_ Em]|[_ Em]]; unfold time in *; rewrite Em in Hm; [|exact (due_ready T now ex r' Hw Hm HT)].
    unfold pg_ready in *. apply andb_prop in Hd. destruct Hd as [Hd _]. apply andb_prop in Hd. destruct Hd as [Hd _]. destruct Hw as [Hw He].
    rewrite He, String.eqb_refl, Bool.andb_true_r. apply andb_true_intro. split; [|destruct Hw as [-> | ->]; reflexivity].
    apply Z.ltb_lt in Hd. apply Z.ltb_lt. unfold dt_diff in *. lia.
  Qed.

  Section Hist.
    Variable st : nat -> fleet.
    Variable ev : nat -> time * fev.
    Hypothesis H : fhist st ev.
    Hypothesis Hg : calls_move st.
    Variables (n : nat) (P : Z) (T : time) (ex : string).
    Hypothesis Hok : forall m r, (n <= m)%nat -> In r (in_line P ex (st m)) -> 0 <= r_attempt r < 2147483647.
    Hypothesis Hre : forall m r r', (n <= m)%nat -> In r (in_line P ex (st m)) -> In r' (in_line P ex (st (S m))) -> r_id r' = r_id r ->
      r_scheduled_at r' <= Z.max T (r_scheduled_at r).
    Hypothesis Hlk : forall m, (n <= m)%nat -> left_to_streams P ex (st m).
    Variable g : nat.
    Hypothesis Hsp : forall m, (n <= m)%nat -> streams_spared g (st m) (snd (ev m)).
    (** At [m] or later one leaves the line. *)
    Definition leaves (m : nat) : Prop := exists q id, (m <= q)%nat /\ In id (ids_in_line P ex (st q)) /\ ~ In id (ids_in_line P ex (st (S q))).
    Lemma leaves_from m m' : (m <= m')%nat -> leaves m' -> leaves m.
    Proof using H Hg Hok Hre Hlk Hsp Hsound. intros L [q [id [L2 K]]]. exists q, id. split; [lia|exact K]. Qed.
    (** One that does not leave is still there, and scheduled for the same instant or an earlier one. *)
    Lemma stays m m' r : (n <= m)%nat -> (m <= m')%nat -> In r (in_line P ex (st m)) ->
      leaves m \/ exists r', In r' (in_line P ex (st m')) /\ r_id r' = r_id r /\ r_scheduled_at r' <= Z.max T (r_scheduled_at r).
    Proof using H Hg Hok Hre Hlk Hsp Hsound.
      intros Hn L Hr. induction L as [|m' L IH]; [right; exists r; repeat split; [exact Hr|unfold time in *; lia]|].
      destruct IH as [IH|[r1 [R1 [R2 R3]]]]; [left; exact IH|].
      destruct (in_dec Z.eq_dec (r_id r1) (ids_in_line P ex (st (S m')))) as [K|K].
      - right. unfold ids_in_line in K. apply in_map_iff in K. destruct K as [r2 [K1 K2]]. exists r2. split; [exact K2|]. split; [congruence|].
        pose proof (Hre m' r1 r2 ltac:(lia) R1 K2 K1). unfold time in *. lia.
      - left. exists m', (r_id r1). split; [exact L|]. split; [apply in_map, R1|exact K].
    Qed.

    (** A call of a stream that has not returned moves at last, by an action of its own. *)
    Lemma load_moves m c ex' pc : (n <= m)%nat -> nth_error (fcalls (st m)) c = Some (mk_qcall (OpLoad ex') pc) -> (forall r, pc <> QDone r) ->
      exists q pk, (m <= q)%nat /\ snd (ev q) = FRun c pk /\ nth_error (fcalls (st q)) c = Some (mk_qcall (OpLoad ex') pc).
    Proof using H Hg Hok Hre Hlk Hsp Hsound.
      intros Hn Hc Hpc. destruct (Hg m c _ Hc) as [m' [L Hm]].
      assert (Hne : nth_error (fcalls (st m')) c <> Some (mk_qcall (OpLoad ex') pc)).
      { destruct Hm as [Hm|[o [r Hm]]]; [exact Hm|]. rewrite Hm. intro K. injection K as _ <-. exact (Hpc r eq_refl). }
      clear Hm. assert (G : forall d q, (m <= q)%nat -> (q + d = m')%nat -> nth_error (fcalls (st q)) c = Some (mk_qcall (OpLoad ex') pc) ->
        exists q pk, (m <= q)%nat /\ snd (ev q) = FRun c pk /\ nth_error (fcalls (st q)) c = Some (mk_qcall (OpLoad ex') pc)).
      { induction d as [|d IH]; intros q Lq Ed Hq; [replace m' with q in Hne by lia; congruence|].
        assert (D : (exists pk, snd (ev q) = FRun c pk) \/ ((forall pk, snd (ev q) <> FRun c pk) /\ forall er, snd (ev q) <> FAbort c er)).
        { pose proof (Hsp q ltac:(lia)) as Hs. destruct (snd (ev q)) as [|a|a b|a|a b|a b|a|a|a|a|a|a|a|a b|a b n1 n2 o|a b|a|a c0 c1|a b|a|a b|a b];
            try (right; split; intros; discriminate).
          - destruct (Nat.eq_dec a c) as [->|Hne2]; [left; eauto|right; split; [congruence|discriminate]].
          - right. split; [discriminate|]. intros er E. injection E as -> _. cbn in Hs. exact (Hs _ ex' Hq eq_refl). }
        destruct D as [[pk D]|[D1 D2]]; [exists q, pk; auto|]. apply (IH (S q)); [lia|lia|].
        exact (call_keeps _ _ _ _ _ _ (freached _ _ _ _ _ _ _ _ H q) (proj2 H q) Hq D1 D2). }
      exact (G (m' - m)%nat m (le_n _) ltac:(lia) Hc).
    Qed.
    Lemma run_at q c pk : snd (ev q) = FRun c pk -> fstep (fst (ev q)) (st q) (FRun c pk) = Some (st (S q)).
    Proof using H Hg Hok Hre Hlk Hsp Hsound. intro E. rewrite <- E. exact (proj2 H q). Qed.

    (** A stream that has locked a row of the line takes it out. *)
    Lemma held_leaves m c ex' began r : (n <= m)%nat -> nth_error (fcalls (st m)) c = Some (mk_qcall (OpLoad ex') (QHeld began (r_id r))) ->
      In r (in_line P ex (st m)) -> leaves m.
    Proof using H Hg Hok Hre Hlk Hsp Hsound.
      intros Hn Hc Hi. destruct (load_moves m c ex' _ Hn Hc ltac:(discriminate)) as [q [pk [L [Ev Hq]]]].
      destruct (stays m q r Hn L Hi) as [K|[r' [R1 [R2 _]]]]; [exact K|]. rewrite <- R2 in Hq.
      exists q, (r_id r'). split; [exact L|]. assert (Hi' : In (r_id r') (ids_in_line P ex (st q))) by (apply in_map, R1). split; [exact Hi'|].
      eapply held_drops; [eapply freached, H|exact (run_at _ _ _ Ev)|exact Hq| |exact Hi'].
      intros x Hx. apply (Hok q x ltac:(lia) Hx).
    Qed.
    Lemma scan_leaves m c began r rest : (n <= m)%nat -> T <= began -> nth_error (fcalls (st m)) c = Some (mk_qcall (OpLoad ex) (QScan began (r_id r :: rest))) ->
      In r (in_line P ex (st m)) -> pg_ready began ex r = true -> leaves m.
    Proof using H Hg Hok Hre Hlk Hsp Hsound.
      intros Hn HT Hc Hi Hd. destruct (load_moves m c ex _ Hn Hc ltac:(discriminate)) as [q [pk [L [Ev Hq]]]].
      destruct (stays m q r Hn L Hi) as [K|[r' [R1 [R2 R3]]]]; [exact K|]. rewrite <- R2 in Hq.
      pose proof (proj1 (in_line_iff _ _ _ _) R1) as [Q1 [Q2 Q3]].
      pose proof (freached _ _ _ _ _ _ _ _ H q) as Hr. destruct (reached_db utc upcoming show hash ident t0 _ Hsound Hr) as [Hv _].
      destruct (row_locked (fcalls (st q)) (r_id r')) eqn:Elk.
      - unfold row_locked in Elk. apply existsb_exists in Elk. destruct Elk as [x [X1 X2]]. apply existsb_exists in X2. destruct X2 as [id' [X2 X3]]. apply Z.eqb_eq in X3. subst id'.
        destruct (Hlk q ltac:(lia) _ x (in_map r_id _ _ R1) X1 X2) as [ex' Eo]. apply In_nth_error in X1. destruct X1 as [c' X1].
        pose proof (iv_stands _ Hv c' x X1) as St. destruct x as [o pc]. cbn [qc_op qc_pc] in *. subst o.
        assert (exists b, pc = QHeld b (r_id r')) as [b ->].
        { unfold row_locks in X2. cbn [qc_pc] in X2. destruct pc; cbn in X2; try destruct X2 as [<-|[]]; try destruct X2; eauto; inversion St. }
        apply (leaves_from m q L). eapply held_leaves; [lia|exact X1|exact R1].
      - apply (leaves_from m q L).
        assert (Hc' : nth_error (fcalls (st (S q))) c = Some (mk_qcall (OpLoad ex) (QHeld began (r_id r')))).
        { rewrite (run_db _ _ _ _ _ (run_at _ _ _ Ev)). cbn [qstep]. rewrite Hq. unfold PgConc.action. cbn [qc_op qc_pc load_action]. rewrite Elk.
          pose proof (find_row_in _ _ (iv_nodup _ Hv) Q1) as F. rewrite F.
          rewrite (ready_earlier T began ex r r' Hd Q2 R3 HT).
          cbn [fst q_calls]. exact (nth_set_same _ _ _ _ Hq). }
        destruct (stays q (S q) r' ltac:(lia) ltac:(lia) R1) as [K|[r2 [S1 [S2 _]]]]; [exact K|].
        apply (leaves_from q (S q) ltac:(lia)). rewrite <- S2 in Hc'. eapply held_leaves; [lia|exact Hc'|exact S1].
    Qed.
    Lemma start_leaves m c r0 : (n <= m)%nat -> (forall q, (m <= q)%nat -> T <= fst (ev q)) -> storable ex = true ->
      nth_error (fcalls (st m)) c = Some (mk_qcall (OpLoad ex) QStart) -> In r0 (in_line P ex (st m)) -> r_scheduled_at r0 <= T -> leaves m.
    Proof using H Hg Hok Hre Hlk Hsp Hsound.
      intros Hn HT Hst Hc Hi0 H0. destruct (load_moves m c ex _ Hn Hc ltac:(discriminate)) as [q [pk [L [Ev Hq]]]].
      destruct (stays m q r0 Hn L Hi0) as [K|[r [R1 [_ R5]]]]; [exact K|]. apply in_line_iff in R1. destruct R1 as [R1 [R3 R4]].
      assert (Hrd : In r (filter (pg_ready (fst (ev q)) ex) (rows (st q)))) by (apply filter_In; split; [exact R1|apply (due_ready T _ ex r R3); [unfold time in *; lia|exact (HT q L)]]).
      pose proof (stable_sort_head pg_leb pg_leb_total pg_leb_trans (filter (pg_ready (fst (ev q)) ex) (rows (st q)))) as Hh.
      destruct (stable_sort pg_leb (filter (pg_ready (fst (ev q)) ex) (rows (st q)))) as [|h tl] eqn:Eso; [rewrite Hh in Hrd; destruct Hrd|].
      destruct Hh as [pre [post [Ep [Hpre Hpost]]]]. rewrite Ep in Hrd.
      assert (Hhr : In h (rows (st q)) /\ pg_ready (fst (ev q)) ex h = true) by (apply filter_In; rewrite Ep; apply in_or_app; right; left; reflexivity).
      destruct Hhr as [Hhr Hhd].
      assert (Hhp : r_priority h <= P).
      { assert (r_priority h <= r_priority r); [|lia]. apply in_app_or in Hrd. destruct Hrd as [K2|[<-|K2]]; [|lia|].
        - specialize (Hpre r K2). unfold pg_leb in Hpre. destruct (Z.compare_spec (r_priority r) (r_priority h)); [lia|discriminate|lia].
        - specialize (Hpost r K2). unfold pg_leb in Hpost. destruct (Z.compare_spec (r_priority h) (r_priority r)); [lia|lia|discriminate]. }
      assert (Hhw : waits_for ex h).
      { unfold pg_ready in Hhd. apply andb_prop in Hhd. destruct Hhd as [Ha Hb]. apply andb_prop in Ha. destruct Ha as [_ Ha].
        apply String.eqb_eq in Hb. apply orb_prop in Ha. rewrite !String.eqb_eq in Ha. split; assumption. }
      assert (Hih : In h (in_line P ex (st q))) by (apply in_line_iff; auto).
      apply (leaves_from m q L). destruct (stays q (S q) h ltac:(lia) ltac:(lia) Hih) as [K|[h' [S1 [S2 S3]]]]; [exact K|].
      apply (leaves_from q (S q) ltac:(lia)).
      eapply (scan_leaves (S q) c (fst (ev q)) h' (map r_id tl)); [lia|exact (HT q L)| |exact S1|].
      - rewrite (run_db _ _ _ _ _ (run_at _ _ _ Ev)). cbn [qstep]. rewrite Hq. unfold PgConc.action. cbn [qc_op qc_pc load_action]. rewrite Hst. cbn [negb].
        rewrite Eso. cbn [fst q_calls map]. rewrite S2. exact (nth_set_same _ _ _ _ Hq).
      - apply in_line_iff in S1. exact (ready_earlier T _ ex h h' Hhd (proj1 (proj2 S1)) S3 (HT q L)).
    Qed.
  End Hist.

  (** * Workers *)
  Lemma onn_streams now q a (w w' : fleet) : onn now q a w = Some w' -> fl_streams w' = fl_streams w /\ fl_net w' = fl_net w.
  Proof. unfold on_node. destruct (nth_error (fl_nodes w) q) as [s|]; [|discriminate]. destruct (app_step utc upcoming show now s a) as [[s' r]|]; [|discriminate]. intro K. injection K as <-. auto. Qed.
  Lemma onw_streams now g a (w w' : fleet) : on_worker utc upcoming show now g a w = Some w' -> fl_streams w' = fl_streams w /\ fl_net w' = fl_net w.
  Proof. unfold on_worker. destruct (nth_error (fl_places w) g) as [[q i]|]; [|discriminate]. apply onn_streams. Qed.
  Lemma ont_streams now g a (w w' : fleet) : on_tick utc upcoming show now g a w = Some w' -> fl_streams w' = fl_streams w /\ fl_net w' = fl_net w.
  Proof. unfold on_tick. destruct (nth_error (fl_places w) g) as [[q i]|]; [|discriminate]. apply onn_streams. Qed.
  Lemma asks_streams now g n : forall l (w : fleet), fl_streams (fold_left (fun w o => fleet_ask ident now g n o w) l w) = fl_streams w.
  Proof. induction l as [|o l IH]; intro w; [reflexivity|]. cbn [fold_left]. rewrite IH. reflexivity. Qed.
  Lemma enlist_streams now q : forall l i (w : fleet), exists ls, fl_streams (enlist_all ident now q i l w) = fl_streams w ++ ls.
  Proof.
    induction l as [|t l IH]; intros i w; cbn [enlist_all]; [exists []; now rewrite app_nil_r|].
    destruct (IH (S i) (enlist ident now q i t w)) as [ls ->]. unfold enlist.
    destruct (ta_body t); cbn [fl_streams on_net]; rewrite <- app_assoc; eauto.
  Qed.
  Lemma streams_more now w ev w' : fstep now w ev = Some w' -> exists ls, fl_streams w' = fl_streams w ++ ls.
  Proof.
    intro Hs. assert (Same : fl_streams w' = fl_streams w -> exists ls, fl_streams w' = fl_streams w ++ ls) by (intros ->; exists []; now rewrite app_nil_r).
    destruct ev as [|q|q ev|o|i pick|i er|c|c|c|g|g|g|g|g n|g n n1 n2 o|g n|g|g c0 c1|g c|g|g c|g c]; cbn [fleet_step] in Hs;
      try (apply Same; injection Hs as <-; reflexivity); try (apply Same; eapply onw_streams; exact Hs); try (apply Same; eapply ont_streams; exact Hs).
    - destruct (Nat.ltb _ _); [|discriminate]. apply Same. injection Hs as <-. reflexivity.
    - unfold fleet_app in Hs. assert (G : forall ev, match onn now q ev w with
        | Some w' => let n := length (tasks_of q w) in Some (enlist_all ident now q n (skipn n (tasks_of q w')) w')
        | None => None end = Some w' -> exists ls, fl_streams w' = fl_streams w ++ ls).
      { intros a K. destruct (onn now q a w) as [w1|] eqn:E; [|discriminate]. cbn zeta in K. injection K as <-. rewrite <- (proj1 (onn_streams _ _ _ _ _ E)). apply enlist_streams. }
      destruct ev; try discriminate; try (exact (G _ Hs)). destruct (nth_error (fl_homes w) _) as [q'|]; [|discriminate]. destruct (Nat.eqb q' q); [|discriminate].
      apply Same. eapply onn_streams. exact Hs.
    - apply Same. unfold fleet_call in Hs. destruct o; try discriminate; injection Hs as <-; reflexivity.
    - apply Same. unfold fleet_poll in Hs. destruct (polled g w) as [k|]; [|discriminate].
      destruct (phase_of k (net now (NStream k now) w)) as [[| | | | | |[j|err|]]|]; try (injection Hs as <-; reflexivity); apply onw_streams in Hs; apply Hs.
    - apply Same. unfold fleet_recv in Hs. destruct (polled g w); [|discriminate]. injection Hs as <-. reflexivity.
    - apply Same. unfold fleet_error in Hs. destruct (polled g w) as [k|]; [|discriminate]. destruct (phase_of k w) as [[]|]; try discriminate. apply onw_streams in Hs. apply Hs.
    - apply Same. unfold fleet_end in Hs. destruct (on_worker utc upcoming show now g _ w) as [w1|] eqn:E; [|discriminate]. rewrite <- (proj1 (onw_streams _ _ _ _ _ E)).
      destruct (task_of g w1) as [t|]; [|discriminate]. destruct (ta_body t); try (injection Hs as <-; reflexivity). destruct (flight_of _ _) as [[]|]; injection Hs as <-; reflexivity.
    - apply Same. unfold fleet_answer in Hs. destruct (answers g n w) as [|[[]|] [|]]; try discriminate; destruct r; try discriminate. apply onw_streams in Hs. apply Hs.
    - apply Same. unfold fleet_wake in Hs. destruct (on_tick utc upcoming show now g _ w) as [w1|] eqn:E; [|discriminate]. rewrite <- (proj1 (ont_streams _ _ _ _ _ E)).
      destruct (task_of g w1) as [t|]; [|discriminate]. destruct (firings (ta_body t)) as [|[c' nx] l]; injection Hs as <-; [reflexivity|]. apply asks_streams.
    - apply Same. unfold fleet_acted in Hs. destruct (task_of g w) as [t|]; [|discriminate]. cbn zeta in Hs.
      destruct (existsb _ _); [apply ont_streams in Hs; apply Hs|]. destruct (forallb _ _); [apply ont_streams in Hs; apply Hs|discriminate].
  Qed.
  Definition deed_ok (x : time * deed Schedule Zone) : Prop := match snd x with OnNode _ a => no_fetch a | OnNet _ => True end.
  Lemma step_deeds now w ev w' : fstep now w ev = Some w' -> Forall deed_ok (fl_log w) -> Forall deed_ok (fl_log w').
  Proof.
    intros Hs Hw. destruct (events_thm utc upcoming show hash ident _ _ _ _ Hs) as [ad [-> K]]. apply Forall_app. split; [exact Hw|]. clear Hw.
    assert (Q : forall os, Forall deed_ok (map (fun o => (now, OnNet (NDb (QCall o)))) os)) by (intro os; apply Forall_forall; intros x Hx; apply in_map_iff in Hx; destruct Hx as [o [<- _]]; exact Logic.I).
    destruct ev as [|q|q ev|o|i pick|i er|c|c|c|g|g|g|g|g n|g n n1 n2 o|g n|g|g c0 c1|g c|g|g c|g c].
    - destruct K as [-> _]. constructor.
    - destruct K as [_ ->]. repeat constructor.
    - destruct K as [K ->]. constructor; [destruct ev; try exact Logic.I; destruct K|]. apply Forall_forall. intros x Hx. apply in_flat_map in Hx. destruct Hx as [t [_ Hx]].
      destruct (ta_body t); [destruct Hx as [<-|[]]; exact Logic.I|destruct Hx..].
    - destruct K as [_ ->]. repeat constructor.
    - subst ad. repeat constructor.
    - subst ad. repeat constructor.
    - subst ad. repeat constructor.
    - subst ad. repeat constructor.
    - subst ad. repeat constructor.
    - destruct K as [q [i [k [_ [_ ->]]]]]. constructor; [exact Logic.I|]. destruct (option_map _ _) as [[| | | | | |[j|err|]]|]; repeat constructor.
    - destruct K as [k [_ ->]]. repeat constructor.
    - destruct K as [q [i [k [_ [_ [_ ->]]]]]]. repeat constructor.
    - destruct K as [q [i [_ ->]]]. repeat constructor.
    - destruct K as [q [i [_ ->]]]. repeat constructor.
    - destruct K as [q [i [_ [os [-> _]]]]]. constructor; [exact Logic.I|apply Q].
    - destruct K as [q [i [r [_ ->]]]]. repeat constructor.
    - destruct K as [q [i [_ ->]]]. repeat constructor.
    - destruct K as [q [i [_ ->]]]. repeat constructor.
    - destruct K as [q [i [_ [os ->]]]]. constructor; [exact Logic.I|apply Q].
    - destruct K as [q [i [_ ->]]]. repeat constructor.
    - destruct K as [q [i [r [_ ->]]]]. repeat constructor.
    - destruct K as [q [i [_ ->]]]. repeat constructor.
  Qed.
  Lemma run_deeds : forall es w w', frun w es = Some w' -> Forall deed_ok (fl_log w) -> Forall deed_ok (fl_log w').
  Proof.
    induction es as [|[now ev] es IH]; intros w w' Hr Hw; cbn [fleet_run] in Hr; [injection Hr as <-; exact Hw|].
    destruct (fstep now w ev) as [w1|] eqn:E; [|discriminate]. apply (IH _ _ Hr). exact (step_deeds _ _ _ _ E Hw).
  Qed.
  (** Between events no worker has an item it has not started on, and one that is at work and has not been told to stop has its stream. *)
  Lemma settled_fleet w g t e wk : reached w -> task_of g w = Some t -> ta_body t = BWorker e wk ->
    w_transit wk = None /\ (w_life wk = Working -> w_cancelled wk = false -> w_open wk = true).
  Proof.
    intros [es Hr] Ht Eb. split.
    - destruct (parts_thm utc upcoming show hash ident t0 es w Hr) as [_ [_ [_ [Hn _]]]].
      unfold task_of in Ht. destruct (nth_error (fl_places w) g) as [[q i]|]; [|discriminate]. destruct (nth_error (fl_nodes w) q) as [s|] eqn:Eq; [|discriminate].
      destruct (Hn q s Eq) as [pes [rs [Hp [Hpe _]]]].
      assert (S : WorldDue.settled t).
      { eapply settled_run; [exact Hp| |exact (nth_error_In _ _ Ht)].
        intros x Hx. pose proof (run_deeds es _ _ Hr (Forall_nil _)) as F. rewrite Forall_forall in F. rewrite Hpe in Hx. unfold node_events in Hx. apply in_flat_map in Hx.
        destruct Hx as [y [Hy Hx]]. specialize (F y Hy). unfold deed_ok in F. destruct (snd y) as [q' a|l]; [|destruct Hx]. destruct (Nat.eqb q' q); [|destruct Hx].
        destruct Hx as [<-|[]]. exact F. }
      unfold WorldDue.settled in S. rewrite Eb in S. exact S.
    - destruct (task_worker utc upcoming show hash ident t0 es w g t e wk Hr Ht Eb) as [wes [Hw _]]. eapply open_run; [exact Hw|]. reflexivity.
  Qed.

  (** Worker [g], its stream and where that stands. *)
  Record fduty (w : fleet) (g b tk : nat) (e : executor) (wk : worker) (k : nat) (s : pstream) : Prop := {
    fd_task : task_of g w = Some (mk_task b tk (BWorker e wk));
    fd_life : w_life wk = Working;
    fd_told : w_cancelled wk = false;
    fd_stream : nth_error (fl_streams w) g = Some (Some k);
    fd_at : nth_error (n_streams (fl_net w)) k = Some s;
    fd_ex : s_executor s = ex_name (xe_consts e);
    fd_only : forall g', nth_error (fl_streams w) g' = Some (Some k) -> g' = g
  }.
  Lemma fduty_at w g b e : reached w -> fleet_on_duty w g b e -> exists tk wk k s, fduty w g b tk e wk k s.
  Proof.
    intros [es Hr] [tk [wk [Ht [El Ec]]]].
    destruct (stream_thm utc upcoming show hash ident t0 es w g _ e wk Hr Ht eq_refl) as [k [s [E1 [E2 [_ [E4 [_ E6]]]]]]].
    exists tk, wk, k, s. constructor; assumption.
  Qed.
  Lemma fduty_polls w g b tk e wk k s : reached w -> fduty w g b tk e wk k s -> polls e wk = below_limit (ex_max_concurrency (xe_consts e)) (length (w_flights wk)).
  Proof.
    intros Hr [D1 D2 D3 _ _ _ _]. destruct (settled_fleet w g _ e wk Hr D1 eq_refl) as [S1 S2].
    unfold polls, may_poll. rewrite D2, S1, D3, (S2 D2 D3). reflexivity.
  Qed.
  (** The worker of the next state. *)
  Lemma fduty_next now w ev w' g b tk e wk k s : reached w -> fduty w g b tk e wk k s -> fstep now w ev = Some w' -> fleet_on_duty w' g b e ->
    exists wk' s', fduty w' g b tk e wk' k s'
      /\ (wk' = wk \/ wstep e wk WCancel = Some wk' \/ exists a, wstep e wk a = Some wk' /\ fworker_does g ev a).
  Proof.
    intros Hr Hd Hs Hon. assert (Hr' : reached w') by (eapply reached_more; [exact Hr|apply run1; exact Hs]).
    destruct (fduty_at w' g b e Hr' Hon) as [tk2 [wk2 [k2 [s2 D2]]]]. pose proof (fd_task _ _ _ _ _ _ _ _ Hd) as D1.
    destruct (fworker_becomes utc upcoming show hash ident _ _ _ _ _ _ _ _ Hs (reached_nodup _ _ _ _ _ _ _ Hr) D1 eq_refl) as [wk' [N B]]. cbn [ta_backend ta_token] in N.
    pose proof (fd_task _ _ _ _ _ _ _ _ D2) as N2. rewrite N in N2. injection N2 as <- <-.
    destruct (streams_more _ _ _ _ Hs) as [ls Els].
    assert (k2 = k) as ->.
    { pose proof (fd_stream _ _ _ _ _ _ _ _ D2) as A. rewrite Els, nth_error_app1 in A by (eapply nth_lt; exact (fd_stream _ _ _ _ _ _ _ _ Hd)).
      rewrite (fd_stream _ _ _ _ _ _ _ _ Hd) in A. congruence. }
    exists wk', s2. split; [exact D2|]. destruct B as [[_ ->]|[[_ B]|[a [B [_ Hdo]]]]]; eauto.
  Qed.
  Lemma poll_net now w w' g b tk e wk k s : fduty w g b tk e wk k s -> fstep now w (FPoll g) = Some w' ->
    fl_net w' = fst (nstep ident (fl_net w) (NStream k now))
    /\ (task_of g w' = task_of g w \/ exists r, fst (fst (pstream_step now (n_db (fl_net w)) k s)) = PYield r).
  Proof.
    intros [D1 D2 D3 D4 D5 D6 D7] Hs. cbn [fleet_step] in Hs. unfold fleet_poll, polled in Hs. rewrite D1, D4 in Hs. cbn [ta_body] in Hs.
    destruct (polls e wk); [|discriminate]. unfold phase_of in Hs. cbn [on_net fl_net nstep] in Hs. rewrite D5 in Hs.
    cbn [nstep]. rewrite D5. destruct (pstream_step now (n_db (fl_net w)) k s) as [[ph call] evs] eqn:Eq. cbn [fst n_streams] in *.
    rewrite (nth_set_same _ _ _ _ D5) in Hs. cbn [option_map] in Hs. change (s_phase (set_phase ph s)) with ph in Hs.
    assert (N : fl_net (net now (NStream k now) w) = mk_n (match call with Some o => fst (qstep ident (n_db (fl_net w)) (QCall o)) | None => n_db (fl_net w) end) (n_clients (fl_net w)) (set_nth k (set_phase ph s) (n_streams (fl_net w)))).
    { unfold on_net. cbn [fl_net nstep]. rewrite D5, Eq. reflexivity. }
    destruct ph as [| | | | | |[j|er|]]; try (injection Hs as <-; split; [exact N|left; reflexivity]).
    - split; [rewrite (proj2 (onw_streams _ _ _ _ _ Hs)); exact N|right; eauto].
    - split; [rewrite (proj2 (onw_streams _ _ _ _ _ Hs)); exact N|right; eauto].
  Qed.
  (** A poll brings the stream to a call, nearer to one, or finds that it is not time. *)
  Lemma poll_step P T now w w' g b tk e wk k s : reached w -> fduty w g b tk e wk k s ->
    fstep now w (FPoll g) = Some w' -> T <= now -> forall r0, In r0 (in_line P (ex_name (xe_consts e)) w) -> r_scheduled_at r0 <= T -> storable (ex_name (xe_consts e)) = true -> fleet_on_duty w' g b e ->
    (rows w' = rows w /\ exists c, nth_error (fcalls w') c = Some (mk_qcall (OpLoad (ex_name (xe_consts e))) QStart))
    \/ exists wk' s', fduty w' g b tk e wk' k s'
      /\ ((prk T (s_phase s') < prk T (s_phase s))%nat
          \/ (s_phase s' = s_phase s /\ wk' = wk
              /\ ((exists t rd sl d, s_phase s = PWait t rd sl d /\ now < sl + d) \/ (exists t rd d c, s_phase s = PLoading t rd d c /\ ~ fleet_returned w c)))).
  Proof.
    intros Hr Hd Hs HT r0 Hi Hok Hst Hon. destruct (poll_net _ _ _ _ _ _ _ _ _ _ Hd Hs) as [En Et].
    destruct (fduty_next _ _ _ _ _ _ _ _ _ _ _ Hr Hd Hs Hon) as [wk' [s' [D' _]]].
    pose proof (fd_at _ _ _ _ _ _ _ _ Hd) as D5. pose proof (fd_ex _ _ _ _ _ _ _ _ Hd) as D6.
    pose proof (fd_at _ _ _ _ _ _ _ _ D') as E5. rewrite En in E5. cbn [nstep] in E5, En. rewrite D5 in E5, En.
    destruct (pstream_step now (n_db (fl_net w)) k s) as [[ph call] evs] eqn:Eq. cbn [fst n_streams] in *. rewrite (nth_set_same _ _ _ _ D5) in E5. injection E5 as Es.
    assert (Eph : s_phase s' = ph) by (rewrite <- Es; reflexivity).
    assert (Same : s_phase s' = s_phase s -> (forall r, ph <> PYield r) -> wk' = wk).
    { intros _ Hy. destruct Et as [Et|[r Et]]; [|destruct (Hy r Et)]. rewrite (fd_task _ _ _ _ _ _ _ _ D'), (fd_task _ _ _ _ _ _ _ _ Hd) in Et. congruence. }
    unfold pstream_step in Eq. destruct (s_phase s) as [|t|t rd d|t rd d i|t rd d|t rd sl d|r] eqn:Ep.
    - right. exists wk', s'. split; [exact D'|]. left. rewrite Eph. injection Eq as <- _ _. rewrite D6.
      apply in_line_iff in Hi. destruct Hi as [I1 [[I2 I3] I4]].
      destruct (pg_next_available (ex_name (xe_consts e)) (q_tbl (n_db (fl_net w)))) as [o|err|] eqn:E.
      2,3: exfalso; unfold pg_next_available in E; rewrite Hst in E; discriminate.
      destruct (next_available_rows _ _ _ E) as [Hx _]. destruct (Hx r0 I1 I2 I3) as [ts [-> Hts]].
      cbn [prk]. replace (ts <=? T) with true by (symmetry; apply Z.leb_le; unfold time in *; lia). lia.
    - right. exists wk', s'. split; [exact D'|]. left. rewrite Eph. cbn zeta in Eq. injection Eq as <- _ _.
      destruct (pg_delay t now <=? pg_delta) eqn:Ed; cbn [prk]; destruct t as [ts|]; try (destruct (ts <=? T) eqn:Et'); try lia.
      exfalso. apply Z.leb_le in Et'. rewrite quick in Ed; [discriminate|unfold time in *; lia].
    - left. injection Eq as <- <- _. rewrite En. cbn [n_db qstep fst q_tbl q_calls]. split; [reflexivity|]. exists (length (fcalls w)). rewrite D6. rewrite nth_error_app2, Nat.sub_diag by lia. reflexivity.
    - right. exists wk', s'. split; [exact D'|]. rewrite Eph. destruct (nth_error (fcalls w) i) as [[o pc]|] eqn:Ec.
      + assert (Dn : (exists r, pc = QDone r) \/ forall r, pc <> QDone r) by (destruct pc; try (right; discriminate); left; eauto).
        destruct Dn as [[r ->]|Dn].
        * left. destruct (load_item r) as [[j|er|]|]; injection Eq as <- _ _; cbn [prk]; lia.
        * assert (ph = PLoading t rd d i) as -> by (destruct pc; try (injection Eq as <- _ _; reflexivity); destruct (Dn r eq_refl)).
          right. split; [reflexivity|]. split; [apply Same; [exact Eph|discriminate]|]. right. exists t, rd, d, i. split; [reflexivity|].
          intros [o' [r Hret]]. rewrite Ec in Hret. injection Hret as _ ->. destruct (Dn r eq_refl).
      + right. injection Eq as <- _ _. split; [reflexivity|]. split; [apply Same; [exact Eph|discriminate]|]. right. exists t, rd, d, i. split; [reflexivity|].
        intros [o' [r Hret]]. rewrite Ec in Hret. discriminate.
    - right. exists wk', s'. split; [exact D'|]. left. rewrite Eph. injection Eq as <- _ _. cbn [prk]. lia.
    - right. exists wk', s'. split; [exact D'|]. rewrite Eph. destruct (sl + d <=? now) eqn:E; injection Eq as <- _ _.
      + left. cbn [prk]. lia.
      + right. split; [reflexivity|]. split; [apply Same; [exact Eph|discriminate]|]. left. exists t, rd, sl, d. split; [reflexivity|]. apply Z.leb_gt in E. exact E.
    - right. exists wk', s'. split; [exact D'|]. left. rewrite Eph. injection Eq as <- _ _. cbn [prk]. lia.
  Qed.
  (** Other steps. *)
  Lemma other_step T now w ev w' g b tk e wk k s : reached w -> fduty w g b tk e wk k s ->
    fstep now w ev = Some w' -> ev <> FPoll g -> ev <> FError g -> fleet_on_duty w' g b e ->
    exists wk' s', fduty w' g b tk e wk' k s' /\ incl (map fst (w_flights wk')) (map fst (w_flights wk))
      /\ (s_phase s' = s_phase s \/ (prk T (s_phase s') < prk T (s_phase s))%nat).
  Proof.
    intros Hr Hd Hs Hne Hne2 Hon. destruct (fduty_next _ _ _ _ _ _ _ _ _ _ _ Hr Hd Hs Hon) as [wk' [s' [D' B]]].
    exists wk', s'. split; [exact D'|]. split.
    { destruct B as [-> |[B|[a [B Hdo]]]]; [apply incl_refl|eapply flights_shrink; [exact B|intros []]|].
      eapply flights_shrink; [exact B|]. destruct ev, a; cbn in Hdo |- *; try tauto; try (subst; congruence). }
    assert (Ev : ev = FRecv g \/ ev <> FRecv g).
    { destruct ev as [|q|q a|o|i pick|i er|c|c|c|g'|g'|g'|g'|g' n|g' n n1 n2 o|g' n|g'|g' c0 c1|g' c|g'|g' c|g' c]; try (right; discriminate). destruct (Nat.eq_dec g' g); [left; congruence|right; congruence]. }
    destruct Hd as [D1 D2 D3 D4 D5 D6 D7]. pose proof (fd_at _ _ _ _ _ _ _ _ D') as E5.
    destruct Ev as [-> |Hnr].
    - cbn [fleet_step] in Hs. unfold fleet_recv, polled in Hs. rewrite D1, D4 in Hs. cbn [ta_body] in Hs. destruct (polls e wk); [|discriminate].
      injection Hs as <-. unfold on_net in E5. cbn [fl_net nstep] in E5. rewrite D5 in E5. destruct s as [c ex [|x q] ph]; cbn [s_phase] in *; [left; cbn [fst] in E5; rewrite D5 in E5; injection E5 as <-; reflexivity|].
      destruct ph; cbn [fst n_streams] in E5; try (left; rewrite D5 in E5; injection E5 as <-; reflexivity).
      right. rewrite (nth_set_same _ _ _ _ D5) in E5. injection E5 as <-. cbn. lia.
    - left. destruct (stream_keeps _ _ _ _ _ _ _ Hr Hs D4 D7 D5 Hne Hnr Hne2) as [s2 [E2 Ep]]. rewrite E5 in E2. injection E2 as ->. exact Ep.
  Qed.

  Lemma loading_call w k s t rd d c : reached w -> nth_error (n_streams (fl_net w)) k = Some s -> s_phase s = PLoading t rd d c -> exists x, nth_error (fcalls w) c = Some x.
  Proof.
    intros [es Hr] Hk Hp. destruct (parts_thm utc upcoming show hash ident t0 es w Hr) as [En _]. rewrite En in Hk |- *.
    destruct (yi_load _ _ (yinv_run ident t0 _) _ _ _ _ _ _ Hk Hp) as [_ [pc Hc]]. eauto.
  Qed.

  (** * The line moves *)
  Theorem line_moves P T st ev g b e n : fhist st ev -> calls_move st -> (forall q, just fstep (fleet_step_with g q) st ev) ->
    just fstep (eq (FPoll g)) st ev -> time_passes ev -> storable (ex_name (xe_consts e)) = true ->
    (forall l, ex_max_concurrency (xe_consts e) = Some l -> 0 <= l) ->
    (forall m, (n <= m)%nat -> fleet_on_duty (st m) g b e) ->
    (forall m r, (n <= m)%nat -> In r (in_line P (ex_name (xe_consts e)) (st m)) -> 0 <= r_attempt r < 2147483647) ->
    (forall m r r', (n <= m)%nat -> In r (in_line P (ex_name (xe_consts e)) (st m)) -> In r' (in_line P (ex_name (xe_consts e)) (st (S m))) -> r_id r' = r_id r ->
      r_scheduled_at r' <= Z.max T (r_scheduled_at r)) ->
    (forall m, (n <= m)%nat -> left_to_streams P (ex_name (xe_consts e)) (st m)) ->
    (forall m, (n <= m)%nat -> streams_spared g (st m) (snd (ev m))) ->
    forall k0, (n <= k0)%nat ->
    exists m, (k0 <= m)%nat /\ ((forall r, In r (in_line P (ex_name (xe_consts e)) (st m)) -> T < r_scheduled_at r)
      \/ exists id, In id (ids_in_line P (ex_name (xe_consts e)) (st m)) /\ ~ In id (ids_in_line P (ex_name (xe_consts e)) (st (S m)))).
  Proof.
    intros H Hg Hj Hp Ht Hst Hlim Hon Hok Hre Hlk Hsp k0 Lk0. set (ex := ex_name (xe_consts e)) in *.
    destruct (Ht T) as [NT HT]. set (base := Nat.max k0 NT).
    set (out := exists m, (k0 <= m)%nat /\ ((forall r, In r (in_line P ex (st m)) -> T < r_scheduled_at r) \/ exists id, In id (ids_in_line P ex (st m)) /\ ~ In id (ids_in_line P ex (st (S m))))).
    pose proof (freached _ _ _ _ _ _ st ev H) as Hr.
    assert (Step : forall m tk wk k s, (base <= m)%nat -> fduty (st m) g b tk e wk k s ->
              out \/ exists wk' s', fduty (st (S m)) g b tk e wk' k s'
                /\ ((prk T (s_phase s') < prk T (s_phase s))%nat
                    \/ (s_phase s' = s_phase s /\ incl (map fst (w_flights wk')) (map fst (w_flights wk))
                        /\ (snd (ev m) = FPoll g -> (exists t rd sl d, s_phase s = PWait t rd sl d /\ fst (ev m) < sl + d)
                              \/ (exists t rd d c, s_phase s = PLoading t rd d c /\ ~ fleet_returned (st m) c))))).
    { intros m tk wk k s L D. pose proof (proj2 H m) as Hs.
      destruct (existsb (fun r => r_scheduled_at r <=? T) (in_line P ex (st m))) eqn:E.
      - apply existsb_exists in E. destruct E as [r0 [Hi H0]]. apply Z.leb_le in H0.
        assert (Ev : snd (ev m) = FPoll g \/ snd (ev m) <> FPoll g).
        { destruct (snd (ev m)) as [|q|q a|o|i pick|i er|c|c|c|g'|g'|g'|g'|g' n'|g' n' n1 n2 o|g' n'|g'|g' c0 c1|g' c|g'|g' c|g' c]; try (right; discriminate).
          destruct (Nat.eq_dec g' g); [left; congruence|right; congruence]. }
        destruct Ev as [Ev|Ev].
        + assert (Hs' : fstep (fst (ev m)) (st m) (FPoll g) = Some (st (S m))) by (rewrite <- Ev; exact Hs).
          destruct (poll_step P T _ _ _ _ _ _ _ _ _ _ (Hr m) D Hs') with (r0 := r0) as [[R [c Hc]]|[wk' [s' [D' R]]]].
          * apply HT. unfold base in L. lia.
          * exact Hi.
          * exact H0.
          * exact Hst.
          * apply Hon. unfold base in L. lia.
          * left. assert (Hi' : In r0 (in_line P ex (st (S m)))) by (unfold in_line in *; rewrite R; exact Hi).
            destruct (start_leaves st ev H Hg n P T ex Hok Hre Hlk g Hsp (S m) c r0) as [q [id [Lq K]]]; [unfold base in L; lia| |exact Hst|exact Hc|exact Hi'|exact H0|].
            -- intros q Lq. apply HT. unfold base in L. lia.
            -- exists q. split; [unfold base in L; lia|]. right. exists id. exact K.
          * right. exists wk', s'. split; [exact D'|]. destruct R as [R|[R1 [-> R2]]]; [left; exact R|]. right. split; [exact R1|]. split; [apply incl_refl|]. intros _. exact R2.
        + right. destruct (other_step T _ _ _ _ _ _ _ _ _ _ _ (Hr m) D Hs Ev) as [wk' [s' [D' [I1 I2]]]].
          * intro K. pose proof (Hsp m ltac:(unfold base in L; lia)) as Sp. assert (Sp' : streams_spared g (st m) (FError g)) by (rewrite <- K; exact Sp). cbn in Sp'. congruence.
          * apply Hon. unfold base in L. lia.
          * exists wk', s'. split; [exact D'|]. destruct I2 as [I2|I2]; [right|left; exact I2]. split; [exact I2|]. split; [exact I1|]. intro K. destruct (Ev K).
      - left. exists m. split; [unfold base in L; lia|]. left. intros r Hi. destruct (Z.leb_spec (r_scheduled_at r) T) as [K|K]; [|exact K].
        assert (existsb (fun r => r_scheduled_at r <=? T) (in_line P ex (st m)) = true); [|congruence]. apply existsb_exists. exists r. split; [exact Hi|apply Z.leb_le; exact K]. }
    assert (Many : forall m0 m tk wk k s, (base <= m0)%nat -> (m0 <= m)%nat -> fduty (st m0) g b tk e wk k s ->
              out \/ exists m1 wk' s', (m0 <= m1)%nat /\ fduty (st m1) g b tk e wk' k s'
                /\ ((prk T (s_phase s') < prk T (s_phase s))%nat \/ (m1 = m /\ s_phase s' = s_phase s /\ incl (map fst (w_flights wk')) (map fst (w_flights wk))))).
    { intros m0 m tk wk k s L0 L D. induction L as [|m L IH].
      - right. exists m0, wk, s. split; [lia|]. split; [exact D|]. right. split; [reflexivity|]. split; [reflexivity|apply incl_refl].
      - destruct IH as [IH|[m1 [wk1 [s1 [L1 [D1 R1]]]]]]; [left; exact IH|]. destruct R1 as [R1|[-> [R1 I1]]]; [right; exists m1, wk1, s1; auto|].
        destruct (Step m tk wk1 k s1 ltac:(lia) D1) as [O|[wk2 [s2 [D2 R2]]]]; [left; exact O|].
        right. exists (S m), wk2, s2. split; [lia|]. split; [exact D2|]. rewrite R1 in R2. destruct R2 as [R2|[R2 [I2 _]]]; [left; exact R2|right]. split; [reflexivity|]. split; [exact R2|].
        eapply incl_tran; eassumption. }
    assert (W : forall m tk wk k s, fduty (st m) g b tk e wk k s -> NoDup (map fst (w_flights wk)) /\ forall q, In q (map fst (w_flights wk)) -> (q < w_next wk)%nat).
    { intros m tk wk k s D. destruct (Hr m) as [es Hes]. destruct (task_worker utc upcoming show hash ident t0 _ _ _ _ _ _ Hes (fd_task _ _ _ _ _ _ _ _ D) eq_refl) as [_ [_ [W1 [W2 _]]]]. auto. }
    assert (Room : forall z m0 tk wk k s, (base <= m0)%nat -> fduty (st m0) g b tk e wk k s -> (length (w_flights wk) <= z)%nat ->
              out \/ exists m wk' s', (m0 <= m)%nat /\ fduty (st m) g b tk e wk' k s' /\ ((prk T (s_phase s') < prk T (s_phase s))%nat \/ (s_phase s' = s_phase s /\ polls e wk' = true))).
    { induction z as [z IH] using lt_wf_ind. intros m0 tk wk k s L0 D Lz. destruct (polls e wk) eqn:Ep.
      - right. exists m0, wk, s. auto.
      - rewrite (fduty_polls _ _ _ _ _ _ _ _ (Hr m0) D) in Ep. unfold below_limit in Ep.
        destruct (ex_max_concurrency (xe_consts e)) as [l|] eqn:Em; [|discriminate]. specialize (Hlim l eq_refl).
        apply Bool.orb_false_iff in Ep. destruct Ep as [P1 P2]. apply Z.eqb_neq in P1. apply Z.ltb_ge in P2.
        destruct (w_flights wk) as [|[q fl] rest] eqn:Ef; [cbn in P2; lia|].
        destruct (W _ _ _ _ _ D) as [W1 W2]. rewrite Ef in W1, W2.
        assert (Hq : fhad g q (st m0)).
        { exists (mk_task b tk (BWorker e wk)), e, wk. split; [exact (fd_task _ _ _ _ _ _ _ _ D)|]. split; [reflexivity|]. apply W2. left. reflexivity. }
        destruct (job_goes utc upcoming show hash ident t0 Hsound st ev g q H Hg (Hj q) m0 Hq) as [m [Lm Fm]].
        destruct (Many m0 m tk wk k s L0 Lm D) as [O|[m1 [wk' [s' [L1 [D' R']]]]]]; [left; exact O|].
        destruct R' as [R'|[-> [R' I']]]; [right; exists m1, wk', s'; auto|].
        assert (Hgone : ~ In q (map fst (w_flights wk'))).
        { intro K. unfold far in Fm. rewrite (fd_task _ _ _ _ _ _ _ _ D') in Fm. cbn [ta_body] in Fm. unfold afar in Fm. rewrite (fd_life _ _ _ _ _ _ _ _ D') in Fm.
          destruct (flight_of q (w_flights wk')) as [ph0|] eqn:E0; [|apply flight_of_none in E0; exact (E0 K)]. destruct ph0; discriminate Fm. }
        assert (Hlen : (S (length (w_flights wk')) <= length (w_flights wk))%nat).
        { rewrite <- (map_length fst (w_flights wk')), <- (map_length fst (w_flights wk)).
          change (S (length (map fst (w_flights wk')))) with (length (q :: map fst (w_flights wk'))). apply NoDup_incl_length.
          - constructor; [exact Hgone|]. exact (proj1 (W _ _ _ _ _ D')).
          - intros q' [<-|K]; [rewrite Ef; left; reflexivity|exact (I' _ K)]. }
        rewrite Ef in Hlen. destruct (IH (length (w_flights wk')) ltac:(cbn [length] in *; lia) m tk wk' k s' ltac:(lia) D' (le_n _)) as [O|[m2 [wk2 [s2 [L2 [D2 P3]]]]]];
          [left; exact O|]. right. exists m2, wk2, s2. split; [lia|]. split; [exact D2|]. rewrite R' in P3. exact P3. }
    assert (Keeps : forall m m' tk wk k s wk' s', fduty (st m) g b tk e wk k s -> fduty (st m') g b tk e wk' k s' ->
              incl (map fst (w_flights wk')) (map fst (w_flights wk)) -> polls e wk = true -> polls e wk' = true).
    { intros m m' tk wk k s wk' s' D D' I' Pw. rewrite (fduty_polls _ _ _ _ _ _ _ _ (Hr m) D) in Pw. rewrite (fduty_polls _ _ _ _ _ _ _ _ (Hr m') D').
      assert (L : (length (w_flights wk') <= length (w_flights wk))%nat).
      { rewrite <- (map_length fst (w_flights wk')), <- (map_length fst (w_flights wk)). apply NoDup_incl_length; [exact (proj1 (W _ _ _ _ _ D'))|exact I']. }
      unfold below_limit in *. destruct (ex_max_concurrency (xe_consts e)) as [l|]; [|reflexivity].
      apply Bool.orb_true_iff in Pw. apply Bool.orb_true_iff. destruct Pw as [Pw|Pw]; [left; exact Pw|right]. apply Z.ltb_lt in Pw. apply Z.ltb_lt. lia. }
    assert (Can : forall m tk wk k s, fduty (st m) g b tk e wk k s -> polls e wk = true -> possible fstep (eq (FPoll g)) (st m)).
    { intros m tk wk k s D Pw. destruct (Hr m) as [es Hes]. destruct (settled_fleet _ _ _ _ _ (Hr m) (fd_task _ _ _ _ _ _ _ _ D) eq_refl) as [S1 S2].
      destruct (proj2 (poll_thm utc upcoming show hash ident t0 es (st m) g _ e wk 0 Hes (fd_task _ _ _ _ _ _ _ _ D) eq_refl)) as [w' E]; [|exists 0, (FPoll g), w'; auto].
      destruct D as [D1 D2 D3 _ _ _ _]. split; [exact D2|]. split; [exact S1|]. split; [exact (S2 D2 D3)|]. split; [exact D3|].
      unfold polls in Pw. rewrite D2, S1 in Pw. unfold may_poll in Pw. apply andb_prop in Pw. destruct Pw as [_ Pw]. unfold below_limit in Pw.
      destruct (ex_max_concurrency (xe_consts e)) as [l|]; [|exact Logic.I]. apply Bool.orb_true_iff in Pw. rewrite Z.eqb_eq, Z.ltb_lt in Pw. exact Pw. }
    assert (Poll : forall m0 tk wk k s, (base <= m0)%nat -> fduty (st m0) g b tk e wk k s -> polls e wk = true ->
              out \/ exists m wk' s', (m0 <= m)%nat /\ fduty (st m) g b tk e wk' k s' /\ (prk T (s_phase s') < prk T (s_phase s))%nat).
    { intros m0 tk wk k s L0 D Pw.
      assert (exists N, forall m, (N <= m)%nat -> (m0 <= m)%nat -> (forall t rd sl d, s_phase s = PWait t rd sl d -> sl + d <= fst (ev m))
                /\ (forall t rd d c, s_phase s = PLoading t rd d c -> fleet_returned (st m) c)) as [N HN].
      { destruct (s_phase s) as [|t|t rd d|t rd d c|t rd d|t rd sl d|r] eqn:Eph; try (exists 0%nat; intros; split; intros; discriminate).
        - destruct (loading_call _ _ _ _ _ _ _ (Hr m0) (fd_at _ _ _ _ _ _ _ _ D) Eph) as [x Hx].
          destruct (calls_come_back utc upcoming show hash ident t0 st ev H Hg m0 c x Hx) as [N [LN HN]].
          exists N. intros m Lm _. split; [intros; discriminate|]. intros t' rd' d' c' E. injection E as _ _ _ <-. exact (still_back _ _ _ _ _ _ _ _ _ _ _ H Lm HN).
        - destruct (Ht (sl + d)) as [N HN]. exists N. intros m Lm _. split; [|intros; discriminate]. intros t' rd' sl' d' E. injection E as _ _ <- <-. apply HN, Lm. }
      destruct (Hp (Nat.max m0 N)) as [m [Lm Dm]].
      destruct (Many m0 m tk wk k s L0 ltac:(lia) D) as [O|[m1 [wk1 [s1 [L1 [D1 R1]]]]]]; [left; exact O|].
      destruct R1 as [R1|[-> [R1 I1]]]; [right; exists m1, wk1, s1; auto|].
      pose proof (Keeps _ _ _ _ _ _ _ _ D D1 I1 Pw) as P1.
      destruct Dm as [Dm|Dm]; [|destruct (Dm (Can _ _ _ _ _ D1 P1))].
      destruct (Step m tk wk1 k s1 ltac:(lia) D1) as [O|[wk2 [s2 [D2 R2]]]]; [left; exact O|]. rewrite R1 in R2.
      destruct R2 as [R2|[_ [_ R2]]]; [right; exists (S m), wk2, s2; split; [lia|]; auto|]. exfalso.
      destruct (HN m ltac:(lia) ltac:(lia)) as [H1 H2]. destruct (R2 (eq_sym Dm)) as [[t [rd [sl [d [E1 E2]]]]]|[t [rd [d [c [E1 E2]]]]]].
      - specialize (H1 _ _ _ _ E1). lia.
      - exact (E2 (H2 _ _ _ _ E1)). }
    assert (Down : forall z m0 tk wk k s, (base <= m0)%nat -> fduty (st m0) g b tk e wk k s -> (prk T (s_phase s) <= z)%nat -> out).
    { induction z as [z IH] using lt_wf_ind. intros m0 tk wk k s L0 D Lz.
      destruct (Room _ m0 tk wk k s L0 D (le_n _)) as [O|[m1 [wk1 [s1 [L1 [D1 [R1|[R1 P1]]]]]]]]; [exact O| |].
      - eapply (IH (prk T (s_phase s1))); [lia| |exact D1|lia]. lia.
      - destruct (Poll m1 tk wk1 k s1 ltac:(lia) D1 P1) as [O|[m [wk' [s' [L [D' R]]]]]]; [exact O|]. rewrite R1 in R.
        eapply (IH (prk T (s_phase s'))); [lia| |exact D'|lia]. lia. }
    assert (Lb : (n <= base)%nat) by (unfold base; lia).
    destruct (fduty_at _ _ _ _ (Hr base) (Hon base Lb)) as [tk [wk [k [s D]]]].
    exact (Down _ base tk wk k s (le_n _) D (le_n _)).
  Qed.
  Theorem line_clears P T st ev g b e n : fhist st ev -> calls_move st -> (forall q, just fstep (fleet_step_with g q) st ev) ->
    just fstep (eq (FPoll g)) st ev -> time_passes ev -> storable (ex_name (xe_consts e)) = true ->
    (forall l, ex_max_concurrency (xe_consts e) = Some l -> 0 <= l) ->
    (forall m, (n <= m)%nat -> fleet_on_duty (st m) g b e) ->
    (forall m r, (n <= m)%nat -> In r (in_line P (ex_name (xe_consts e)) (st m)) -> r_scheduled_at r <= T /\ 0 <= r_attempt r < 2147483647) ->
    (forall m, (n <= m)%nat -> left_to_streams P (ex_name (xe_consts e)) (st m)) ->
    (forall m, (n <= m)%nat -> streams_spared g (st m) (snd (ev m))) ->
    (forall m, (n <= m)%nat -> incl (ids_in_line P (ex_name (xe_consts e)) (st (S m))) (ids_in_line P (ex_name (xe_consts e)) (st m))) ->
    exists m, (n <= m)%nat /\ forall m', (m <= m')%nat -> in_line P (ex_name (xe_consts e)) (st m') = [].
  Proof.
    intros H Hg Hj Hp Ht Hst Hlim Hon Hok Hlk Hsp Hin. set (ex := ex_name (xe_consts e)) in *. set (mu := fun d => length (ids_in_line P ex (st (n + d)%nat))).
    pose proof (freached _ _ _ _ _ _ st ev H) as Hr.
    assert (Mono : forall d d', (d <= d')%nat -> (mu d' <= mu d)%nat).
    { intros d d' L. induction L as [|d' L IH]; [lia|]. unfold mu in *. replace (n + S d')%nat with (S (n + d')) by lia.
      pose proof (NoDup_incl_length (ids_nodup P ex _ (Hr (S (n + d')))) (Hin (n + d')%nat ltac:(lia))). lia. }
    destruct (comes_down mu) with (n := 0%nat) as [d [_ Ed]].
    - intros d Hd. destruct (line_moves P T st ev g b e n H Hg Hj Hp Ht Hst Hlim Hon) with (k0 := (n + d)%nat) as [m [L K]]; try assumption.
      + intros m r L K. apply (Hok m r L K).
      + intros m r r' L K K' _. pose proof (proj1 (Hok (S m) r' ltac:(lia) K')). unfold time in *. lia.
      + lia.
      + destruct K as [K|[id [K1 K2]]].
        * exists (m - n)%nat. split; [lia|]. unfold mu at 1. replace (n + (m - n))%nat with m by lia. unfold ids_in_line. rewrite map_length.
          fold ex in K. destruct (in_line P ex (st m)) as [|r l] eqn:El; [cbn; lia|]. exfalso.
          assert (Hi : In r (in_line P ex (st m))) by (rewrite El; left; reflexivity).
          pose proof (K r (or_introl eq_refl)). pose proof (proj1 (Hok m r ltac:(lia) Hi)). unfold time in *. lia.
        * exists (S (m - n))%nat. split; [lia|]. pose proof (Mono d (m - n)%nat ltac:(lia)) as M. unfold mu in *. replace (n + (m - n))%nat with m in M by lia. replace (n + S (m - n))%nat with (S m) by lia.
          fold ex in K1, K2. assert (length (id :: ids_in_line P ex (st (S m))) <= length (ids_in_line P ex (st m)))%nat; [|cbn [length] in *; lia].
          apply NoDup_incl_length; [constructor; [exact K2|exact (ids_nodup P ex _ (Hr (S m)))]|]. intros x [<-|Hx]; [exact K1|]. apply (Hin m ltac:(lia)), Hx.
    - exists (n + d)%nat. split; [lia|]. intros m' L. apply length_zero_iff_nil. pose proof (Mono d (m' - n)%nat ltac:(lia)) as M. unfold mu in *.
      replace (n + (m' - n))%nat with m' in M by lia. unfold ids_in_line in M, Ed. rewrite !map_length in M. rewrite map_length in Ed. lia.
  Qed.
End Due.
