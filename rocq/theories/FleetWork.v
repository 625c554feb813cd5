(** Lemmas about the work processes that share a Postgres database can always get done. *)
From Coq Require Import Lia Permutation.
From Verif Require Import Base Chrono Types TypesProofs Query QueryProofs Memory MemSpec MemProofs MemWake PgRow PgQuery Pg PgSpec PgProofs PgOps PgConc PgConcSpec PgConcProofs PgConcLive
  PgSysProofs SuiteProofs PgListen PgListenSpec PgListenProofs Codec Builder Runner RunnerSpec WorkerProofs Ticker Pruner ApiProofs App AppSpec AppProofs AppEnd
  World WorldSpec WorldProofs WorldThms WorldLive WorldWork Fleet FleetSpec FleetLink FleetInv FleetThms FleetLive.

Section Alone.
  Variable ident : option Z -> option string -> list status -> Z.

  (** A call that is made when all others have returned can be carried out at once. *)
  Lemma alone_call now s o : NoDup (map r_id (t_rows (q_tbl s))) -> all_finished s ->
    exists n, qrun ident (fst (qstep ident s (QCall o))) (repeat (QRun (length (q_calls s)) now 0) n)
      = mk_q (fst (pg_step ident now (q_tbl s) o)) (q_calls s ++ [mk_qcall o (QDone (snd (pg_step ident now (q_tbl s) o)))]).
  Proof.
    intros Hn Hf. set (i := length (q_calls s)). set (cs := q_calls s ++ [mk_qcall o QStart]).
    assert (Hi : nth_error cs i = Some (mk_qcall o QStart)) by (unfold cs, i; rewrite nth_error_app2, Nat.sub_diag by lia; reflexivity).
    assert (Hk : forall k c, k <> i -> nth_error cs k = Some c -> exists r, qc_pc c = QDone r).
    { intros k c Hne Hc. pose proof (nth_lt _ _ _ Hc) as Hl. unfold cs in Hc, Hl. rewrite app_length in Hl. cbn [length] in Hl.
      rewrite nth_error_app1 in Hc by (unfold i in Hne; lia). eapply Hf; exact Hc. }
    destruct (solo ident i o cs now _ Hi (q_tbl s) Hn) as [n Hn'].
    - intros k c Hne Hc. destruct (Hk k c Hne Hc) as [r Hr]. unfold row_locks. rewrite Hr. reflexivity.
    - intros k c Hne Hc. destruct (Hk k c Hne Hc) as [r Hr]. unfold advisory. rewrite Hr. destruct (qc_op c); reflexivity.
    - exists n. unfold at_pc in Hn'. unfold cs, i in Hn'. rewrite !set_at_end in Hn'. exact Hn'.
  Qed.

  (** If a row is due, one is handed out. *)
  Lemma load_head now e t r0 : NoDup (map r_id (t_rows t)) -> can_do e t -> In r0 (t_rows t) -> pg_ready now (ex_name (xe_consts e)) r0 = true ->
    exists pre r post r' j, t_rows t = pre ++ r :: post /\ waits_for (ex_name (xe_consts e)) r /\ represents r j
      /\ (forall n, runnable (xe_codec e) (xe_fns e) (after_hand_out n j)) /\ pg_ready now (ex_name (xe_consts e)) r = true
      /\ pg_load now (ex_name (xe_consts e)) t = (mk_tbl (pre ++ r' :: post) (t_next t), Ok (Some (after_hand_out (pg_time now) j)))
      /\ represents r' (after_hand_out (pg_time now) j) /\ r_uniqueness_key r' = r_uniqueness_key r
      /\ (forall y, In y (t_rows t) -> pg_ready now (ex_name (xe_consts e)) y = true -> r_priority r <= r_priority y).
  Proof.
    intros Hn [Hst Hdo] Hin Hr. set (ex := ex_name (xe_consts e)) in *. unfold pg_load. rewrite Hst. cbn [negb].
    pose proof (stable_sort_head pg_leb pg_leb_total pg_leb_trans (filter (pg_ready now ex) (t_rows t))) as Hh.
    assert (Hi : In r0 (filter (pg_ready now ex) (t_rows t))) by (apply filter_In; auto).
    destruct (stable_sort pg_leb (filter (pg_ready now ex) (t_rows t))) as [|r l] eqn:Eo.
    { assert (Hp := sorted_same pg_leb (filter (pg_ready now ex) (t_rows t))). rewrite Eo in Hp. apply (Permutation_in r0 Hp) in Hi. destruct Hi. }
    destruct Hh as [fpre [fpost [Ef [Hpre Hpost]]]].
    assert (Hbest : forall y, In y (t_rows t) -> pg_ready now ex y = true -> r_priority r <= r_priority y).
    { intros y Hy Hry. assert (Hf : In y (filter (pg_ready now ex) (t_rows t))) by (apply filter_In; auto).
      assert (Hle : pg_leb r y = true).
      { rewrite Ef in Hf. apply in_app_or in Hf. destruct Hf as [Hf|[<-|Hf]].
        - specialize (Hpre y Hf). destruct (pg_leb_total r y); congruence.
        - destruct (pg_leb_total r r); assumption.
        - auto. }
      unfold pg_leb in Hle. destruct (Z.compare_spec (r_priority r) (r_priority y)); try discriminate; lia. }
    assert (H0 : In r (filter (pg_ready now ex) (t_rows t))) by (rewrite Ef; apply in_elt).
    apply filter_In in H0. destruct H0 as [H0 Hr']. clear Hi Ef.
    assert (Hw : waits_for ex r).
    { unfold pg_ready in Hr'. apply andb_prop in Hr'. destruct Hr' as [Ha Hb]. apply andb_prop in Ha. destruct Ha as [_ Ha].
      apply String.eqb_eq in Hb. apply orb_prop in Ha. rewrite !String.eqb_eq in Ha. split; assumption. }
    destruct (Hdo r H0 Hw) as [j [Hj Hru]].
    assert (Hfit : in_i32 (r_attempt r + 1) = true).
    { apply in_i32_spec. replace (r_attempt r) with (j_attempt j) by (row_fields Hj; congruence). pose proof (runs_fit (Schedule := unit) (Zone := unit) tt (fun _ _ _ => None) (fun _ => EmptyString) (fun _ _ => 0) e now j (Hru now)). lia. }
    assert (Et : pg_take now r = Some (put_status "executing" (put_attempted_at (Some (pg_time now)) (put_attempt (r_attempt r + 1) r)))).
    { unfold pg_take, int4. rewrite Hfit. reflexivity. }
    apply in_split in H0. destruct H0 as [pre [post Es]]. rewrite Es in Hn.
    eexists pre, r, post, _, j. split; [exact Es|]. split; [exact Hw|]. split; [exact Hj|]. split; [exact Hru|]. split; [exact Hr'|].
    rewrite Es, (update_rows_one pre r post _ _ Et Hn), Et. pose proof (row_taken now r j Hj) as Ht. rewrite (proj1 (represents_iff _ _) Ht).
    split; [reflexivity|]. split; [exact Ht|]. split; [reflexivity|]. rewrite Es in Hbest. exact Hbest.
  Qed.

  Lemma complete_one now t pre r post j : NoDup (map r_id (t_rows t)) -> t_rows t = pre ++ r :: post -> represents r j ->
    exists r', pg_step ident now t (OpComplete (j_id j)) = (mk_tbl (pre ++ r' :: post) (t_next t), RUnit (Ok tt))
      /\ represents r' (after_complete (pg_time now) j) /\ r_uniqueness_key r' = r_uniqueness_key r.
  Proof.
    intros Hn Es Hj. cbn [pg_step]. unfold pg_complete, pg_update_by_id. cbn [negb].
    replace (j_id j) with (r_id r) by (row_fields Hj; assumption). rewrite Es in Hn. eexists.
    rewrite Es, (update_rows_one pre r post (fun r0 => Some (put_status "complete" (put_completed_at (Some (pg_time now)) r0))) _ eq_refl Hn). cbn.
    split; [reflexivity|]. split; [apply row_complete, Hj|reflexivity].
  Qed.
End Alone.

Section Work.
  Context {Schedule Zone : Type}.
  Variable utc : Zone.
  Variable upcoming : Schedule -> Zone -> time -> option time.
  Variable show : Z -> string.
  Variable hash : forall e : executor, xe_data e -> Z.
  Variable ident : option Z -> option string -> list status -> Z.
  Variable t0 : tbl.
  Hypothesis Hsd : sound_table t0.
  Notation fleet := (fleet Schedule Zone).
  Notation tsk := (task Schedule Zone).
  Notation fstep := (fleet_step utc upcoming show hash ident).
  Notation frun := (fleet_run utc upcoming show hash ident).
  Notation net := (on_net (Schedule := Schedule) (Zone := Zone) ident).
  Notation wstep e := (worker_step (xe_codec e) (xe_fns e) show (ex_max_concurrency (xe_consts e))).
  Notation reached := (FleetLive.reached utc upcoming show hash ident t0).
  Notation aside := FleetLive.aside.

  Lemma db_nodup w : reached w -> NoDup (map r_id (t_rows (q_tbl (n_db (fl_net w))))).
  Proof. intro Hr. apply (iv_nodup _ (proj1 (reached_db utc upcoming show hash ident t0 w Hsd Hr))). Qed.

  (** Task [g] gets on, from time [T] on, and nothing else happens but what its calls do. *)
  Record works (T : time) (g : nat) (w : fleet) (es : list (time * fleet_event Schedule Zone)) (w' : fleet) : Prop := mk_works {
    wo_run : frun w es = Some w';
    wo_own : forall s, Forall (fun x => of_task g s (snd x)) es;
    wo_late : Forall (fun x => T <= fst x) es;
    wo_aside : aside g w w';
    wo_streams : forall k, nth_error (fl_streams w) g <> Some (Some k) -> nth_error (n_streams (fl_net w')) k = nth_error (n_streams (fl_net w)) k;
    wo_calls : forall c o r, nth_error (q_calls (n_db (fl_net w))) c = Some (mk_qcall o (QDone r)) -> nth_error (q_calls (n_db (fl_net w'))) c = Some (mk_qcall o (QDone r))
  }.
  Lemma works_refl T g w : works T g w [] w.
  Proof. constructor; auto. apply FleetLive.aside_refl. Qed.
  Lemma works_trans T g w1 es1 w2 es2 w3 : works T g w1 es1 w2 -> works T g w2 es2 w3 -> works T g w1 (es1 ++ es2) w3.
  Proof.
    intros [A1 A2 A3 A4 A5 A6] [B1 B2 B3 B4 B5 B6]. constructor.
    - eapply run2; eassumption.
    - intro s. apply Forall_app. auto.
    - apply Forall_app. auto.
    - eapply FleetLive.aside_trans; eassumption.
    - intros k Hk. rewrite B5, A5; auto. rewrite (as_streams _ _ _ A4). exact Hk.
    - auto.
  Qed.
  Lemma works_later T T' g w es w' : T <= T' -> works T' g w es w' -> works T g w es w'.
  Proof. intros H [A1 A2 A3 A4 A5 A6]. constructor; auto. eapply Forall_impl; [|exact A3]. cbn beta. intros; lia. Qed.
  Lemma works_one T now g w ev w' : T <= now -> fstep now w ev = Some w' -> (forall s, of_task g s ev) -> aside g w w' -> fl_net w' = fl_net w -> works T g w [(now, ev)] w'.
  Proof.
    intros HT H Ho Ha En. constructor.
    - apply run1, H.
    - intro s. repeat constructor. apply Ho.
    - repeat constructor. exact HT.
    - exact Ha.
    - intros k _. now rewrite En.
    - rewrite En. auto.
  Qed.

  (** Worker [g] may poll its stream [k], and all calls have returned. *)
  Record ready (w : fleet) (g : nat) (t : tsk) (e : executor) (wk : worker) (k : nat) (st : pstream) : Prop := mk_ready {
    rd_reached : reached w;
    rd_task : task_of g w = Some t;
    rd_body : ta_body t = BWorker e wk;
    rd_polls : polls e wk = true;
    rd_stream : nth_error (fl_streams w) g = Some (Some k);
    rd_at : nth_error (n_streams (fl_net w)) k = Some st;
    rd_name : s_executor st = ex_name (xe_consts e);
    rd_settled : settled w
  }.

  (** The stream makes a step. *)
  Lemma stream_moves now g w t e wk k st ph' call evs : ready w g t e wk k st -> pstream_step now (n_db (fl_net w)) k st = (ph', call, evs) ->
    let w1 := net now (NStream k now) w in
    n_db (fl_net w1) = match call with Some o => fst (qstep ident (n_db (fl_net w)) (QCall o)) | None => n_db (fl_net w) end
    /\ nth_error (n_streams (fl_net w1)) k = Some (set_phase ph' st)
    /\ (forall k', k' <> k -> nth_error (n_streams (fl_net w1)) k' = nth_error (n_streams (fl_net w)) k')
    /\ fl_nodes w1 = fl_nodes w /\ fl_places w1 = fl_places w /\ fl_homes w1 = fl_homes w /\ fl_streams w1 = fl_streams w /\ fl_asks w1 = fl_asks w.
  Proof.
    intros R E w1. unfold w1, on_net. cbn [fl_net fl_nodes fl_places fl_homes fl_streams fl_asks nstep]. rewrite (rd_at _ _ _ _ _ _ _ R), E.
    cbn [fst n_db n_streams]. split; [destruct call; reflexivity|]. split; [exact (nth_set_same _ _ _ _ (rd_at _ _ _ _ _ _ _ R))|].
    split; [intros k' Hk; apply nth_set_nth_other; congruence|]. auto 10.
  Qed.
  Lemma same_aside g (w w' : fleet) : fl_nodes w' = fl_nodes w -> fl_places w' = fl_places w -> fl_homes w' = fl_homes w -> fl_streams w' = fl_streams w -> aside g w w'.
  Proof.
    intros A B C D. assert (Ht : forall k, task_of k w' = task_of k w) by (intro k; unfold task_of; now rewrite A, B).
    constructor; auto; [intro q; now rewrite A| |now rewrite Ht]. intros t t' H1 H2. rewrite Ht in H2. assert (t' = t) as -> by congruence. auto.
  Qed.

  (** A poll that yields nothing. *)
  Lemma quiet now g w t e wk k st ph' call evs : ready w g t e wk k st -> pstream_step now (n_db (fl_net w)) k st = (ph', call, evs) ->
    match ph' with PYield _ => False | _ => True end ->
    exists w1, works now g w [(now, FPoll g)] w1 /\ reached w1 /\ task_of g w1 = Some t
      /\ nth_error (fl_streams w1) g = Some (Some k) /\ nth_error (n_streams (fl_net w1)) k = Some (set_phase ph' st)
      /\ n_db (fl_net w1) = match call with Some o => fst (qstep ident (n_db (fl_net w)) (QCall o)) | None => n_db (fl_net w) end.
  Proof.
    intros R E Hq. destruct (stream_moves now g w t e wk k st ph' call evs R E) as [M1 [M2 [M3 [M4 [M5 [M6 [M7 M8]]]]]]].
    set (w1 := net now (NStream k now) w) in *. exists w1.
    assert (V : fstep now w (FPoll g) = Some w1).
    { cbn [fleet_step]. unfold fleet_poll, polled. rewrite (rd_task _ _ _ _ _ _ _ R), (rd_stream _ _ _ _ _ _ _ R), (rd_body _ _ _ _ _ _ _ R), (rd_polls _ _ _ _ _ _ _ R).
      fold w1. unfold phase_of. rewrite M2. cbn [option_map set_phase s_phase]. destruct ph'; try reflexivity. destruct Hq. }
    assert (Ht : task_of g w1 = Some t) by (unfold task_of; rewrite M4, M5; exact (rd_task _ _ _ _ _ _ _ R)).
    split; [|split; [eapply FleetLive.reached_more; [exact (rd_reached _ _ _ _ _ _ _ R)|apply run1; exact V]|]].
    - constructor.
      + apply run1, V.
      + intro s. repeat constructor.
      + repeat constructor. cbn. lia.
      + apply same_aside; assumption.
      + intros k' Hk. apply M3. intros ->. apply Hk, (rd_stream _ _ _ _ _ _ _ R).
      + intros c o r0 Hc. rewrite M1. destruct call as [o'|]; [|exact Hc]. cbn [qstep fst q_calls]. rewrite nth_error_app1 by (eapply nth_lt; exact Hc). exact Hc.
    - split; [exact Ht|]. split; [rewrite M7; exact (rd_stream _ _ _ _ _ _ _ R)|]. auto.
  Qed.
  Lemma quiet_ready now g w t e wk k st ph' evs : ready w g t e wk k st -> pstream_step now (n_db (fl_net w)) k st = (ph', None, evs) ->
    match ph' with PYield _ => False | _ => True end ->
    exists w1, works now g w [(now, FPoll g)] w1 /\ ready w1 g t e wk k (set_phase ph' st) /\ n_db (fl_net w1) = n_db (fl_net w).
  Proof.
    intros R E Hq. destruct (quiet now g w t e wk k st ph' None evs R E Hq) as [w1 [W [A1 [A2 [A3 [A4 A5]]]]]]. exists w1. split; [exact W|].
    split; [|exact A5]. destruct R as [R1 R2 R3 R4 R5 R6 R7 R8]. constructor; auto. unfold settled. rewrite A5. exact R8.
  Qed.

  (** A poll that yields something. *)
  Lemma yields_item now g w t e wk k st r evs m : ready w g t e wk k st -> pstream_step now (n_db (fl_net w)) k st = (PYield r, None, evs) ->
    match r with Ok j => m = MJob j | Err err => m = MError err | Panic => False end ->
    exists w1, works now g w [(now, FPoll g)] w1 /\ reached w1 /\ task_of g w1 = Some (mk_task (ta_backend t) (ta_token t) (BWorker e (push_flight m wk)))
      /\ nth_error (fl_streams w1) g = Some (Some k) /\ nth_error (n_streams (fl_net w1)) k = Some (set_phase (PYield r) st)
      /\ n_db (fl_net w1) = n_db (fl_net w).
  Proof.
    intros R E Hm. destruct (stream_moves now g w t e wk k st _ _ _ R E) as [M1 [M2 [M3 [M4 [M5 [M6 [M7 M8]]]]]]].
    set (w0 := net now (NStream k now) w) in *.
    assert (Hp : wstep e wk (WTake m) = Some (push_flight m wk)).
    { pose proof (rd_polls _ _ _ _ _ _ _ R) as R2. unfold polls in R2. unfold worker_step. destruct (w_life wk); try discriminate.
      destruct (w_transit wk); [discriminate|]. rewrite R2. reflexivity. }
    assert (Ht0 : task_of g w0 = Some t) by (unfold task_of; rewrite M4, M5; exact (rd_task _ _ _ _ _ _ _ R)).
    assert (Hd : exists w1, on_worker utc upcoming show now g (WTake m) w0 = Some w1 /\ aside g w0 w1
              /\ task_of g w1 = Some (mk_task (ta_backend t) (ta_token t) (BWorker e (push_flight m wk))) /\ fl_net w1 = fl_net w0 /\ fl_asks w1 = fl_asks w0).
    { destruct (FleetLive.task_where g w0 t Ht0) as [q [i [s [Hg [Hq Hi]]]]]. unfold on_worker. rewrite Hg.
      eapply FleetLive.do_task; [rewrite M5; eapply FleetLive.reached_nodup; exact (rd_reached _ _ _ _ _ _ _ R)|exact Hg|exact Hq|exact Hi|].
      cbn [app_step]. rewrite Hi. unfold worker_task_step. rewrite (rd_body _ _ _ _ _ _ _ R), Hp. reflexivity. }
    destruct Hd as [w1 [V1 [V2 [V3 [V4 V5]]]]]. exists w1.
    assert (V : fstep now w (FPoll g) = Some w1).
    { cbn [fleet_step]. unfold fleet_poll, polled. rewrite (rd_task _ _ _ _ _ _ _ R), (rd_stream _ _ _ _ _ _ _ R), (rd_body _ _ _ _ _ _ _ R), (rd_polls _ _ _ _ _ _ _ R).
      fold w0. unfold phase_of. rewrite M2. cbn [option_map set_phase s_phase]. destruct r; subst; try exact V1. destruct Hm. }
    split; [|split; [eapply FleetLive.reached_more; [exact (rd_reached _ _ _ _ _ _ _ R)|apply run1; exact V]|]].
    - constructor.
      + apply run1, V.
      + intro s. repeat constructor.
      + repeat constructor. cbn. lia.
      + eapply FleetLive.aside_trans; [apply same_aside; eassumption|exact V2].
      + intros k' Hk. rewrite V4. apply M3. intros ->. apply Hk, (rd_stream _ _ _ _ _ _ _ R).
      + intros c o r0 Hc. rewrite V4, M1. exact Hc.
    - split; [exact V3|]. split; [rewrite (as_streams _ _ _ V2), M7; exact (rd_stream _ _ _ _ _ _ _ R)|]. rewrite V4. auto.
  Qed.

  (** The worker gets a job: the row [r] of those there are. *)
  Definition gives (T : time) (w : fleet) (g : nat) (t : tsk) (e : executor) (wk : worker) (k : nat) (tb : tbl) : Prop :=
    exists es w' now st' pre r post r' j,
      works T g w es w' /\ T <= now /\ reached w' /\ settled w'
      /\ task_of g w' = Some (mk_task (ta_backend t) (ta_token t) (BWorker e (push_flight (MJob (after_hand_out (pg_time now) j)) wk)))
      /\ nth_error (fl_streams w') g = Some (Some k) /\ nth_error (n_streams (fl_net w')) k = Some st' /\ s_executor st' = ex_name (xe_consts e)
      /\ s_phase st' = PYield (Ok (after_hand_out (pg_time now) j))
      /\ t_rows tb = pre ++ r :: post /\ q_tbl (n_db (fl_net w')) = mk_tbl (pre ++ r' :: post) (t_next tb)
      /\ waits_for (ex_name (xe_consts e)) r /\ represents r j /\ (forall n, runnable (xe_codec e) (xe_fns e) (after_hand_out n j))
      /\ pg_ready now (ex_name (xe_consts e)) r = true
      /\ represents r' (after_hand_out (pg_time now) j) /\ r_uniqueness_key r' = r_uniqueness_key r
      /\ (forall y, In y (t_rows tb) -> pg_ready now (ex_name (xe_consts e)) y = true -> r_priority r <= r_priority y).

  Lemma gives_after T T' w es1 w1 g t e wk k tb : T <= T' -> works T g w es1 w1 -> gives T' w1 g t e wk k tb -> gives T w g t e wk k tb.
  Proof.
    intros HT W [es [w' [now [st' [pre [r [post [r' [j [G1 [G2 G3]]]]]]]]]]].
    exists (es1 ++ es), w', now, st', pre, r, post, r', j. split; [eapply works_trans; [exact W|eapply works_later; eassumption]|]. split; [lia|exact G3].
  Qed.

  Lemma give_load T w g t e wk k st seen rd d r0 : ready w g t e wk k st -> s_phase st = PTry seen rd d -> can_do e (q_tbl (n_db (fl_net w))) ->
    In r0 (t_rows (q_tbl (n_db (fl_net w)))) -> pg_ready T (ex_name (xe_consts e)) r0 = true -> gives T w g t e wk k (q_tbl (n_db (fl_net w))).
  Proof.
    intros R Hp Hc Hi Hr. pose proof (db_nodup w (rd_reached _ _ _ _ _ _ _ R)) as Hn.
    set (i := length (q_calls (n_db (fl_net w)))).
    assert (E : pstream_step T (n_db (fl_net w)) k st = (PLoading seen rd d i, Some (OpLoad (ex_name (xe_consts e))), [])).
    { unfold pstream_step. rewrite Hp, (rd_name _ _ _ _ _ _ _ R). reflexivity. }
    destruct (quiet T g w t e wk k st _ _ _ R E Logic.I) as [w1 [W1 [A1 [A2 [A3 [A4 A5]]]]]].
    destruct (alone_call ident T (n_db (fl_net w)) (OpLoad (ex_name (xe_consts e))) Hn (rd_settled _ _ _ _ _ _ _ R)) as [n Hal].
    destruct (FleetLive.run_labels utc upcoming show hash ident T (repeat (QRun i T 0) n) w1) as [w2 [B1 [B2 B3]]].
    { apply Forall_forall. intros l Hl. apply repeat_spec in Hl. subst l. reflexivity. }
    rewrite A5 in B3. unfold i in B3 at 1. rewrite Hal in B3.
    destruct (load_head T e _ r0 Hn Hc Hi Hr) as [pre [r [post [r' [j [L1 [L2 [L3 [L4 [L5 [L6 [L7 [L8 L9]]]]]]]]]]]]].
    cbn [pg_step] in B3. rewrite L6 in B3. cbn [fst snd] in B3.
    assert (W2 : works T g w1 (map (fun l => (T, ev_of l)) (repeat (QRun i T 0) n)) w2).
    { constructor.
      - exact B1.
      - intro s. rewrite Forall_map. apply Forall_forall. intros l Hl. apply repeat_spec in Hl. subst l. exact Logic.I.
      - rewrite Forall_map. apply Forall_forall. intros l _. cbn. lia.
      - apply FleetLive.co_aside, B2.
      - intros k' _. now rewrite (co_net _ _ B2).
      - intros c o y Hy. rewrite A5 in Hy. cbn [qstep fst q_calls] in Hy. rewrite B3. cbn [q_calls].
        destruct (Nat.lt_ge_cases c (length (q_calls (n_db (fl_net w))))) as [Hl|Hl].
        + rewrite nth_error_app1 in * by exact Hl. exact Hy.
        + exfalso. rewrite nth_error_app2 in Hy by exact Hl. destruct (c - length (q_calls (n_db (fl_net w))))%nat as [|z]; [discriminate|destruct z; discriminate]. }
    assert (R2 : ready w2 g t e wk k (set_phase (PLoading seen rd d i) st)).
    { destruct R as [R1 R2 R3 R4 R5 R6 R7 R8]. constructor; auto.
      - eapply FleetLive.reached_more; eassumption.
      - now rewrite (FleetLive.co_task _ _ _ B2).
      - now rewrite (co_streams _ _ B2).
      - now rewrite (co_net _ _ B2).
      - unfold settled. rewrite B3. intros c x Hx. cbn [q_calls] in Hx. apply nth_snoc in Hx. destruct Hx as [Hx| ->]; [exact (R8 c x Hx)|]. eexists. reflexivity. }
    assert (E2 : pstream_step T (n_db (fl_net w2)) k (set_phase (PLoading seen rd d i) st)
                 = (PYield (Ok (after_hand_out (pg_time T) j)), None, [NvYield k i (after_hand_out (pg_time T) j)])).
    { unfold pstream_step. cbn [set_phase s_phase]. rewrite B3. cbn [q_calls]. unfold i. rewrite nth_error_app2, Nat.sub_diag by lia. reflexivity. }
    destruct (yields_item T g w2 t e wk k _ _ _ _ R2 E2 eq_refl) as [w3 [W3 [C1 [C2 [C3 [C4 C5]]]]]].
    exists ([(T, FPoll g)] ++ map (fun l => (T, ev_of l)) (repeat (QRun i T 0) n) ++ [(T, FPoll g)]), w3, T, (set_phase (PYield (Ok (after_hand_out (pg_time T) j))) (set_phase (PLoading seen rd d i) st)), pre, r, post, r', j.
    split; [eapply works_trans; [exact W1|]; eapply works_trans; [exact W2|exact W3]|]. split; [lia|]. split; [exact C1|].
    split; [unfold settled; rewrite C5; exact (rd_settled _ _ _ _ _ _ _ R2)|]. do 3 (split; [assumption|]).
    split; [exact (rd_name _ _ _ _ _ _ _ R2)|]. split; [reflexivity|]. split; [exact L1|]. split; [rewrite C5, B3; reflexivity|]. do 6 (split; [assumption|]). exact L9.
  Qed.

  Lemma due_ready T now ex r : waits_for ex r -> r_scheduled_at r <= T -> T <= now -> pg_ready now ex r = true.
  Proof using.
    clear. intros [Hw He] Hs HT. unfold pg_ready, dt_diff. rewrite He, String.eqb_refl, Bool.andb_true_r.
    apply andb_true_intro. split; [|destruct Hw as [-> | ->]; reflexivity].
    apply Z.ltb_lt. pose proof (pg_time_near now). change (100 * ns_per_ms) with 100000000. unfold time in *. lia.
  Qed.
  Lemma quick now ts : ts <= now -> pg_delay (Some ts) now <=? pg_delta = true.
  Proof using.
    clear. intro H. apply Z.leb_le. unfold pg_delay, to_std, dt_diff. change pg_delta with 15000000. change pg_default_delay with 30000000000.
    unfold time in *. destruct (Z.ltb_spec (ts - now) 0); lia.
  Qed.

  (** From wherever its stream is, a worker gets a job, if one is due. *)
  Lemma gives_job T w g t e wk k st r0 : ready w g t e wk k st -> can_do e (q_tbl (n_db (fl_net w))) -> empty_handed g w ->
    In r0 (t_rows (q_tbl (n_db (fl_net w)))) -> waits_for (ex_name (xe_consts e)) r0 -> r_scheduled_at r0 <= T ->
    gives T w g t e wk k (q_tbl (n_db (fl_net w))).
  Proof.
    intros R Hc He Hi Hw Hs.
    assert (GL : forall T' w' st' a b c, T <= T' -> ready w' g t e wk k st' -> n_db (fl_net w') = n_db (fl_net w) -> s_phase st' = PTry a b c ->
              gives T' w' g t e wk k (q_tbl (n_db (fl_net w)))).
    { intros T' w' st' a b c HT R' En Hp. rewrite <- En. eapply (give_load T' w' g t e wk k st' a b c r0 R' Hp); rewrite ?En; auto.
      eapply due_ready; eassumption. }
    assert (GG : forall T' w' st' ts, T <= T' -> ts <= T -> ready w' g t e wk k st' -> n_db (fl_net w') = n_db (fl_net w) -> s_phase st' = PGot (Some ts) ->
              gives T' w' g t e wk k (q_tbl (n_db (fl_net w)))).
    { intros T' w' st' ts HT Hts R' En Hp. pose proof (quick T' ts ltac:(lia)) as Hq.
      destruct (quiet_ready T' g w' t e wk k st' (PTry (Some ts) T' (pg_delay (Some ts) T')) [] R') as [w1 [W1 [R1 E1]]].
      - unfold pstream_step. rewrite Hp, Hq. reflexivity.
      - exact Logic.I.
      - eapply gives_after; [apply Z.le_refl|exact W1|]. eapply GL; [exact HT|exact R1|congruence|reflexivity]. }
    assert (GC : forall T' w' st', T <= T' -> ready w' g t e wk k st' -> n_db (fl_net w') = n_db (fl_net w) -> s_phase st' = PCheck ->
              gives T' w' g t e wk k (q_tbl (n_db (fl_net w)))).
    { intros T' w' st' HT R' En Hp.
      assert (Hn : exists ts, pg_next_available (ex_name (xe_consts e)) (q_tbl (n_db (fl_net w'))) = Ok (Some ts) /\ ts <= r_scheduled_at r0).
      { destruct (pg_next_available (ex_name (xe_consts e)) (q_tbl (n_db (fl_net w')))) as [o|err|] eqn:E.
        2,3: exfalso; unfold pg_next_available in E; rewrite (proj1 Hc) in E; discriminate.
        destruct (next_available_rows _ _ _ E) as [Hx _]. rewrite En in Hx. destruct Hw as [Hw1 Hw2]. destruct (Hx r0 Hi Hw1 Hw2) as [ts [-> Hts]]. eauto. }
      destruct Hn as [ts [Hn Hts]].
      destruct (quiet_ready T' g w' t e wk k st' (PGot (Some ts)) [] R') as [w1 [W1 [R1 E1]]].
      - unfold pstream_step. rewrite Hp, (rd_name _ _ _ _ _ _ _ R'), Hn. reflexivity.
      - exact Logic.I.
      - eapply gives_after; [apply Z.le_refl|exact W1|]. eapply (GG T' w1 _ ts); [exact HT| |exact R1|congruence|reflexivity]. lia. }
    assert (GW : forall T' w' st' a b sl d, T <= T' -> ready w' g t e wk k st' -> n_db (fl_net w') = n_db (fl_net w) -> s_phase st' = PWait a b sl d ->
              gives T' w' g t e wk k (q_tbl (n_db (fl_net w)))).
    { intros T' w' st' a b sl d HT R' En Hp. set (T2 := Z.max T' (sl + d)).
      assert (HT2 : T' <= T2) by (unfold T2; lia).
      destruct (quiet_ready T2 g w' t e wk k st' PCheck [] R') as [w1 [W1 [R1 E1]]].
      - unfold pstream_step. rewrite Hp. replace (sl + d <=? T2) with true by (symmetry; apply Z.leb_le; unfold T2; lia). reflexivity.
      - exact Logic.I.
      - eapply (gives_after T' T2); [exact HT2|eapply works_later; [exact HT2|exact W1]|]. eapply GC; [lia|exact R1|congruence|reflexivity]. }
    assert (GS : forall T' w' st' a b d, T <= T' -> ready w' g t e wk k st' -> n_db (fl_net w') = n_db (fl_net w) -> s_phase st' = PSelect a b d ->
              gives T' w' g t e wk k (q_tbl (n_db (fl_net w)))).
    { intros T' w' st' a b d HT R' En Hp.
      destruct (quiet_ready T' g w' t e wk k st' (PWait a b T' d) [] R') as [w1 [W1 [R1 E1]]].
      - unfold pstream_step. rewrite Hp. reflexivity.
      - exact Logic.I.
      - eapply gives_after; [apply Z.le_refl|exact W1|]. eapply GW; [exact HT|exact R1|congruence|reflexivity]. }
    destruct (s_phase st) as [|seen|seen rd d|seen rd d i|seen rd d|seen rd sl d|r] eqn:Ep.
    - eapply GC; [apply Z.le_refl|exact R|reflexivity|exact Ep].
    - destruct (pg_delay seen T <=? pg_delta) eqn:Ed.
      + destruct (quiet_ready T g w t e wk k st (PTry seen T (pg_delay seen T)) [] R) as [w1 [W1 [R1 E1]]].
        * unfold pstream_step. rewrite Ep, Ed. reflexivity.
        * exact Logic.I.
        * eapply gives_after; [apply Z.le_refl|exact W1|]. eapply GL; [apply Z.le_refl|exact R1|congruence|reflexivity].
      + destruct (quiet_ready T g w t e wk k st (PSelect seen T (pg_delay seen T)) [] R) as [w1 [W1 [R1 E1]]].
        * unfold pstream_step. rewrite Ep, Ed. reflexivity.
        * exact Logic.I.
        * eapply gives_after; [apply Z.le_refl|exact W1|]. eapply GS; [apply Z.le_refl|exact R1|congruence|reflexivity].
    - eapply GL; [apply Z.le_refl|exact R|reflexivity|exact Ep].
    - destruct (rd_reached _ _ _ _ _ _ _ R) as [es H]. destruct (reach_good utc upcoming show hash ident t0 es w H) as [K _].
      pose proof (rd_at _ _ _ _ _ _ _ R) as Rk. pose proof Rk as Rk'. rewrite (k_net _ _ _ _ _ _ K) in Rk'.
      destruct (yi_load _ _ (yinv_run ident t0 _) _ _ _ _ _ _ Rk' Ep) as [_ [pc Hpc]]. rewrite <- (k_net _ _ _ _ _ _ K) in Hpc.
      destruct (rd_settled _ _ _ _ _ _ _ R _ _ Hpc) as [res Hres]. cbn [qc_pc] in Hres. subst pc.
      pose proof (He k st seen rd d i _ res (rd_stream _ _ _ _ _ _ _ R) Rk Ep Hpc) as ->.
      destruct (quiet_ready T g w t e wk k st (PSelect seen rd d) [] R) as [w1 [W1 [R1 E1]]].
      + unfold pstream_step. rewrite Ep, Hpc. reflexivity.
      + exact Logic.I.
      + eapply gives_after; [apply Z.le_refl|exact W1|]. eapply GS; [apply Z.le_refl|exact R1|congruence|reflexivity].
    - eapply GS; [apply Z.le_refl|exact R|reflexivity|exact Ep].
    - eapply GW; [apply Z.le_refl|exact R|reflexivity|exact Ep].
    - destruct (quiet_ready T g w t e wk k st PCheck [] R) as [w1 [W1 [R1 E1]]].
      + unfold pstream_step. rewrite Ep. reflexivity.
      + exact Logic.I.
      + eapply gives_after; [apply Z.le_refl|exact W1|]. eapply GC; [apply Z.le_refl|exact R1|congruence|reflexivity].
  Qed.

  (** A stream that has just yielded holds nothing. *)
  Lemma yield_empty g (w : fleet) k st r : nth_error (fl_streams w) g = Some (Some k) -> nth_error (n_streams (fl_net w)) k = Some st -> s_phase st = PYield r -> empty_handed g w.
  Proof. intros H1 H2 H3 k' st' a b c i o res K1 K2 K3 K4. assert (k' = k) as -> by congruence. assert (st' = st) as -> by congruence. congruence. Qed.

  Lemma serve_one T w g t e wk k st r0 : ready w g t e wk k st -> can_do e (q_tbl (n_db (fl_net w))) -> empty_handed g w ->
    In r0 (t_rows (q_tbl (n_db (fl_net w)))) -> waits_for (ex_name (xe_consts e)) r0 -> r_scheduled_at r0 <= T ->
    exists es' w' t' wk' st' pre r post r',
      works T g w es' w' /\ ready w' g t' e wk' k st' /\ w_flights wk' = w_flights wk /\ empty_handed g w'
      /\ t' = mk_task (ta_backend t) (ta_token t) (BWorker e wk')
      /\ t_rows (q_tbl (n_db (fl_net w))) = pre ++ r :: post /\ q_tbl (n_db (fl_net w')) = mk_tbl (pre ++ r' :: post) (t_next (q_tbl (n_db (fl_net w))))
      /\ waits_for (ex_name (xe_consts e)) r /\ run_and_done T r r'
      /\ r_priority r <= r_priority r0
      /\ exists j, jobs_taken wk' = jobs_taken wk ++ [j] /\ j_priority j = r_priority r.
  Proof.
    intros R Hc He Hi Hw Hs.
    destruct (gives_job T w g t e wk k st r0 R Hc He Hi Hw Hs) as [es1 [w1 [now [st1 [pre [r [post [r1 [j G]]]]]]]]].
    destruct G as [G1 [G2 [G3 [G4 [G5 [G6 [G7 [G8 [G9 [G10 [G11 [G12 [G13 [G14 [G15 [G16 [G17 G18]]]]]]]]]]]]]]]]].
    pose proof (db_nodup w1 G3) as Hn1.
    pose proof (G14 (pg_time now)) as Hr. apply (proj2 (begin_runnable _ _ show _)) in Hr. destruct Hr as [x Hb].
    destruct (begin_spawned _ _ show _ _ Hb) as [_ [_ [_ [_ [Hid _]]]]].
    set (n := w_next wk) in *. set (j1 := after_hand_out (pg_time now) j) in *.
    assert (Hfr : ~ In n (map fst (w_flights wk))).
    { destruct (rd_reached _ _ _ _ _ _ _ R) as [es H]. destruct (task_worker utc upcoming show hash ident t0 es w g t e wk H (rd_task _ _ _ _ _ _ _ R) (rd_body _ _ _ _ _ _ _ R)) as [_ [_ [_ [W2 _]]]].
      intro Hi'. specialize (W2 _ Hi'). unfold n in W2. lia. }
    assert (Hl : w_life wk = Working /\ w_transit wk = None /\ may_poll (ex_max_concurrency (xe_consts e)) wk = true).
    { pose proof (rd_polls _ _ _ _ _ _ _ R) as R2. unfold polls in R2. destruct (w_life wk); try discriminate. destruct (w_transit wk); [discriminate|]. auto. }
    destruct Hl as [Hl [Htr Hmp]].
    (* it is started *)
    set (wk1 := push_flight (MJob j1) wk) in *.
    assert (F1 : w_flights wk1 = w_flights wk ++ [(n, FNew (MJob j1))]) by reflexivity.
    assert (S1 : wstep e wk1 (WStart n) = Some (progress n (Some (FExecuting x)) [Started n x] wk1)).
    { unfold worker_step. change (w_life wk1) with (w_life wk). rewrite Hl, F1, (flight_new _ _ _ Hfr), Hb. reflexivity. }
    set (wk2 := progress n (Some (FExecuting x)) [Started n x] wk1) in *.
    destruct (FleetLive.do_worker utc upcoming show hash ident t0 now g w1 _ e wk1 _ _ G3 G5 eq_refl S1 ltac:(discriminate)) as [w2 [V2 [A2 [T2 [N2 As2]]]]].
    cbn [ta_backend ta_token] in T2.
    assert (W2 : works T g w1 [(now, FStart g n)] w2) by (apply works_one; [exact G2|exact V2|intro; reflexivity|exact A2|exact N2]).
    assert (F2 : w_flights wk2 = w_flights wk ++ [(n, FExecuting x)]) by (unfold wk2; cbn [progress w_flights]; rewrite F1; exact (set_new _ _ _ _ Hfr)).
    pose proof (FleetLive.reached_more _ _ _ _ _ _ _ _ _ G3 (wo_run _ _ _ _ _ W2)) as Hr2.
    (* it ends well *)
    assert (S2 : wstep e wk2 (WEnd n now now ODone) = Some (progress n (Some (FReporting (OpComplete (x_id x)))) [Reported n (OpComplete (x_id x))]
                     (progress n (Some (FExecuting x)) [Outcome n ODone] wk2))).
    { unfold worker_step. change (w_life wk2) with (w_life wk). rewrite Hl, F2, (flight_new _ _ _ Hfr). reflexivity. }
    set (wk3 := progress n (Some (FReporting (OpComplete (x_id x)))) [Reported n (OpComplete (x_id x))] (progress n (Some (FExecuting x)) [Outcome n ODone] wk2)) in *.
    destruct (FleetLive.do_worker utc upcoming show hash ident t0 now g w2 _ e wk2 _ _ Hr2 T2 eq_refl S2 ltac:(discriminate)) as [w3 [V3 [A3 [T3 [N3 As3]]]]].
    cbn [ta_backend ta_token] in T3.
    assert (F3 : w_flights wk3 = w_flights wk ++ [(n, FReporting (OpComplete (x_id x)))]).
    { unfold wk3. cbn [progress w_flights]. rewrite F2, (set_new _ _ _ _ Hfr). exact (set_new _ _ _ _ Hfr). }
    assert (V4 : fstep now w2 (FEnd g n now now ODone) = Some (fleet_ask ident now g n (OpComplete (x_id x)) w3)).
    { cbn [fleet_step]. unfold fleet_end. rewrite V3, T3. cbn [ta_body]. rewrite F3, (flight_new _ _ _ Hfr). reflexivity. }
    set (w4 := fleet_ask ident now g n (OpComplete (x_id x)) w3) in *. set (c := length (q_calls (n_db (fl_net w1)))).
    assert (N4 : n_db (fl_net w4) = fst (qstep ident (n_db (fl_net w1)) (QCall (OpComplete (x_id x)))) /\ n_streams (fl_net w4) = n_streams (fl_net w1)).
    { unfold w4, fleet_ask. cbn [fl_net on_net]. destruct (ndb_net ident (fl_net w3) (QCall (OpComplete (x_id x)))) as [-> ->]. now rewrite N3, N2. }
    destruct N4 as [N4 N4'].
    assert (As4 : fl_asks w4 = fl_asks w3 ++ [mk_ask g n c]) by (unfold w4, fleet_ask, c; cbn [fl_asks on_net]; now rewrite N3, N2).
    assert (W4 : works T g w2 [(now, FEnd g n now now ODone)] w4).
    { constructor.
      - apply run1, V4.
      - intro s. repeat constructor.
      - repeat constructor. exact G2.
      - eapply FleetLive.aside_trans; [exact A3|]. apply same_aside; reflexivity.
      - intros k' _. rewrite N4', N2. reflexivity.
      - intros c' o y Hy. rewrite N4. rewrite N2 in Hy. cbn [qstep fst q_calls]. rewrite nth_error_app1 by (eapply nth_lt; exact Hy). exact Hy. }
    pose proof (FleetLive.reached_more _ _ _ _ _ _ _ _ _ Hr2 (wo_run _ _ _ _ _ W4)) as Hr4.
    (* the database carries out the report *)
    destruct (alone_call ident now (n_db (fl_net w1)) (OpComplete (x_id x)) Hn1 G4) as [m Hal].
    destruct (FleetLive.run_labels utc upcoming show hash ident now (repeat (QRun c now 0) m) w4) as [w5 [B1 [B2 B3]]].
    { apply Forall_forall. intros l Hl'. apply repeat_spec in Hl'. subst l. reflexivity. }
    rewrite N4 in B3. unfold c in B3 at 1. rewrite Hal in B3.
    assert (E11 : t_rows (q_tbl (n_db (fl_net w1))) = pre ++ r1 :: post) by (rewrite G11; reflexivity).
    destruct (complete_one ident now (q_tbl (n_db (fl_net w1))) pre r1 post j1 Hn1 E11 G16) as [r2 [D1 [D2 D3]]].
    rewrite Hid, D1 in B3. cbn [fst snd] in B3.
    assert (W5 : works T g w4 (map (fun l => (now, ev_of l)) (repeat (QRun c now 0) m)) w5).
    { constructor.
      - exact B1.
      - intro s. rewrite Forall_map. apply Forall_forall. intros l Hl'. apply repeat_spec in Hl'. subst l. exact Logic.I.
      - rewrite Forall_map. apply Forall_forall. intros l _. exact G2.
      - apply FleetLive.co_aside, B2.
      - intros k' _. now rewrite (co_net _ _ B2).
      - intros c' o y Hy. rewrite N4 in Hy. cbn [qstep fst q_calls] in Hy. rewrite B3. cbn [q_calls].
        destruct (Nat.lt_ge_cases c' (length (q_calls (n_db (fl_net w1))))) as [Hl'|Hl'].
        + rewrite nth_error_app1 in * by exact Hl'. exact Hy.
        + exfalso. rewrite nth_error_app2 in Hy by exact Hl'. destruct (c' - length (q_calls (n_db (fl_net w1))))%nat as [|z]; [discriminate|destruct z; discriminate]. }
    pose proof (FleetLive.reached_more _ _ _ _ _ _ _ _ _ Hr4 (wo_run _ _ _ _ _ W5)) as Hr5.
    assert (T5 : task_of g w5 = Some (mk_task (ta_backend t) (ta_token t) (BWorker e wk3))) by (rewrite (FleetLive.co_task _ _ _ B2); exact T3).
    assert (S5 : settled w5).
    { unfold settled. rewrite B3. intros c' y Hy. cbn [q_calls] in Hy. apply nth_snoc in Hy. destruct Hy as [Hy| ->]; [exact (G4 c' y Hy)|]. eexists. reflexivity. }
    (* and the worker gets the answer *)
    assert (S6 : wstep e wk3 (WReported n (Ok tt)) = Some (progress n None [] wk3)).
    { unfold worker_step. change (w_life wk3) with (w_life wk). rewrite Hl, F3, (flight_new _ _ _ Hfr). reflexivity. }
    set (wk6 := progress n None [] wk3) in *.
    destruct (FleetLive.do_worker utc upcoming show hash ident t0 now g w5 _ e wk3 _ _ Hr5 T5 eq_refl S6 ltac:(discriminate)) as [w6 [V6 [A6 [T6 [N6 As6]]]]].
    cbn [ta_backend ta_token] in T6.
    assert (F6 : w_flights wk6 = w_flights wk) by (unfold wk6; cbn [progress w_flights]; rewrite F3, (set_new _ _ _ _ Hfr); apply app_nil_r).
    assert (Ev : fstep now w5 (FAnswer g n) = Some w6).
    { destruct Hr5 as [es5 H5].
      destruct (report_thm utc upcoming show hash ident t0 es5 w5 g _ e wk3 n (OpComplete (x_id x)) H5 T5 eq_refl ltac:(rewrite F3; exact (flight_new _ _ _ Hfr))) as [a [pc [Y1 [Y2 Y3]]]].
      assert (Ha : a = mk_ask g n c).
      { rewrite (co_asks _ _ B2), As4, filter_app in Y1. cbn [filter ak_task ak_turn] in Y1. rewrite !Nat.eqb_refl in Y1. cbn [andb] in Y1.
        destruct (filter _ (fl_asks w3)) as [|a1 l]; cbn in Y1; [injection Y1 as <-; reflexivity|]. injection Y1 as _ Y1. destruct l; discriminate. }
      subst a. cbn [ak_call] in Y2. rewrite B3 in Y2. unfold c in Y2. cbn [q_calls] in Y2. rewrite nth_error_app2, Nat.sub_diag in Y2 by lia.
      injection Y2 as _ <-. cbn [fleet_step]. unfold fleet_answer. rewrite Y3. exact V6. }
    assert (W6 : works T g w5 [(now, FAnswer g n)] w6) by (apply works_one; [exact G2|exact Ev|intro; reflexivity|exact A6|exact N6]).
    assert (St6 : nth_error (fl_streams w6) g = Some (Some k)).
    { rewrite (as_streams _ _ _ A6), (co_streams _ _ B2). change (fl_streams w4) with (fl_streams w3). rewrite (as_streams _ _ _ A3), (as_streams _ _ _ A2). exact G6. }
    assert (Sn6 : nth_error (n_streams (fl_net w6)) k = Some st1) by (rewrite N6, (co_net _ _ B2), N4'; exact G7).
    exists (es1 ++ [(now, FStart g n)] ++ [(now, FEnd g n now now ODone)] ++ map (fun l => (now, ev_of l)) (repeat (QRun c now 0) m) ++ [(now, FAnswer g n)]),
      w6, (mk_task (ta_backend t) (ta_token t) (BWorker e wk6)), wk6, st1, pre, r, post, r2.
    split; [eapply works_trans; [exact G1|]; eapply works_trans; [exact W2|]; eapply works_trans; [exact W4|]; eapply works_trans; [exact W5|exact W6]|].
    split.
    { constructor; auto.
      - eapply FleetLive.reached_more; [exact Hr5|exact (wo_run _ _ _ _ _ W6)].
      - unfold polls. change (w_life wk6) with (w_life wk). change (w_transit wk6) with (@None message). rewrite Hl.
        unfold may_poll in *. change (w_open wk6) with (w_open wk). change (w_cancelled wk6) with (w_cancelled wk). rewrite F6. exact Hmp.
      - unfold settled. rewrite N6. exact S5. }
    split; [exact F6|]. split; [eapply yield_empty; eassumption|]. split; [reflexivity|]. split; [exact G10|]. split; [rewrite N6, B3, G11; reflexivity|].
    split; [exact G12|]. split; [|split; [apply G18; [exact Hi|eapply due_ready; eassumption]|]].
    2: { exists j1. split; [|unfold j1; row_fields G13; cbn; congruence].
      unfold wk6, wk3, wk2, wk1, jobs_taken. cbn [progress push_flight w_seen app flat_map]. reflexivity. }
    exists j, now, now. split; [lia|]. split.
    - unfold pg_ready, dt_diff in G15. apply andb_prop in G15. destruct G15 as [G15 _]. apply andb_prop in G15. destruct G15 as [G15 _]. apply Z.ltb_lt in G15.
      replace (j_scheduled_at j) with (r_scheduled_at r) by (row_fields G13; congruence). unfold time in *. lia.
    - split; [exact G13|]. split; [exact D2|congruence].
  Qed.

  Definition waitb (ex : string) (r : row) : bool :=
    (String.eqb (r_status r) "scheduled" || String.eqb (r_status r) "retryable") && String.eqb (r_executor r) ex.
  Lemma waitb_ok ex r : waitb ex r = true <-> waits_for ex r.
  Proof using. clear. unfold waitb, waits_for. rewrite Bool.andb_true_iff, Bool.orb_true_iff, !String.eqb_eq. tauto. Qed.
  Lemma done_not_waiting T ex x y : run_and_done T x y -> ~ waits_for ex y.
  Proof using.
    clear. intros [j [t1 [t2 [_ [_ [_ [H _]]]]]]] [[Hs|Hs] _].
    all: row_fields H; apply spelled_label in R2; rewrite Hs in R2; discriminate.
  Qed.
  (** What becomes of a row: it is as it was, or its job has waited and been done. *)
  Definition served (T : time) (ex : string) (x y : row) : Prop := y = x \/ (waits_for ex x /\ run_and_done T x y).
  Definition tended (T : time) (x y : row) : Prop := exists ex, served T ex x y.
  Lemma tended_trans T : forall l1 l2 l3, Forall2 (tended T) l1 l2 -> Forall2 (tended T) l2 l3 -> Forall2 (tended T) l1 l3.
  Proof using.
    clear. intros l1 l2 l3 H. revert l3. induction H as [|x y l1 l2 Hxy _ IH]; intros l3 K; inversion K as [|? z ? l3' Hyz K']; subst; constructor; [|apply IH; exact K'].
    destruct Hyz as [ex' [->|[P D]]]; [exact Hxy|]. destruct Hxy as [ex [->|[P' D']]]; [exists ex'; right; auto|]. destruct (done_not_waiting _ _ _ _ D' P).
  Qed.
  Lemma tended_refl T l : Forall2 (tended T) l l.
  Proof using. clear. induction l; constructor; [exists EmptyString; left; reflexivity|assumption]. Qed.
  Lemma served_trans T ex : forall l1 l2 l3, Forall2 (served T ex) l1 l2 -> Forall2 (served T ex) l2 l3 -> Forall2 (served T ex) l1 l3.
  Proof using.
    clear. intros l1 l2 l3 H. revert l3. induction H as [|x y l1 l2 Hxy _ IH]; intros l3 K; inversion K as [|? z ? l3' Hyz K']; subst; constructor; [|apply IH; exact K'].
    destruct Hyz as [->|[P D]]; [exact Hxy|]. destruct Hxy as [->|[P' D']]; [right; auto|]. destruct (done_not_waiting _ _ _ _ D' P).
  Qed.
  Lemma served_refl T ex l : Forall2 (served T ex) l l.
  Proof using. clear. induction l; constructor; [left; reflexivity|assumption]. Qed.
  Lemma served_tended T ex l l' : Forall2 (served T ex) l l' -> Forall2 (tended T) l l'.
  Proof using. clear. induction 1; constructor; [eexists; eassumption|assumption]. Qed.
  Lemma tended_back T ex l l' y : Forall2 (tended T) l l' -> In y l' -> waits_for ex y -> In y l.
  Proof using.
    clear. intros H Hy Hw. induction H as [|a b l l' Hab _ IH]; [destruct Hy|]. destruct Hy as [->|Hy]; [|right; auto]. left.
    destruct Hab as [ex' [->|[_ D]]]; [reflexivity|]. destruct (done_not_waiting _ _ _ _ D Hw).
  Qed.
  Lemma tended_can T e t t' : can_do e t -> Forall2 (tended T) (t_rows t) (t_rows t') -> can_do e t'.
  Proof using.
    clear. intros [C1 C2] H. split; [exact C1|]. intros r Hr Hw. apply C2; [|exact Hw]. eapply tended_back; eassumption.
  Qed.

  Lemma serve_all T : forall m w g t e wk k st, (length (filter (waitb (ex_name (xe_consts e))) (t_rows (q_tbl (n_db (fl_net w))))) <= m)%nat ->
    ready w g t e wk k st -> can_do e (q_tbl (n_db (fl_net w))) -> empty_handed g w ->
    exists es' w' t' wk' st', works T g w es' w' /\ ready w' g t' e wk' k st' /\ w_flights wk' = w_flights wk
      /\ t' = mk_task (ta_backend t) (ta_token t) (BWorker e wk')
      /\ t_next (q_tbl (n_db (fl_net w'))) = t_next (q_tbl (n_db (fl_net w)))
      /\ Forall2 (served T (ex_name (xe_consts e))) (t_rows (q_tbl (n_db (fl_net w)))) (t_rows (q_tbl (n_db (fl_net w'))))
      /\ (forall r, In r (t_rows (q_tbl (n_db (fl_net w')))) -> waits_for (ex_name (xe_consts e)) r -> T < r_scheduled_at r).
  Proof.
    induction m as [|m IH]; intros w g t e wk k st Hm R Hc He.
    all: set (ex := ex_name (xe_consts e)) in *; set (rows := t_rows (q_tbl (n_db (fl_net w)))) in *.
    all: destruct (filter (fun r => waitb ex r && (r_scheduled_at r <=? T)) rows) as [|r0 l] eqn:Ef.
    1,3: exists [], w, t, wk, st; split; [apply works_refl|]; split; [exact R|]; split; [reflexivity|];
      split; [pose proof (rd_body _ _ _ _ _ _ _ R) as Eb; destruct t; cbn in *; congruence|]; split; [reflexivity|]; split; [apply served_refl|];
      intros r Hr Hw; destruct (Z.lt_ge_cases T (r_scheduled_at r)) as [|Hle]; [assumption|]; exfalso;
      assert (Hf : In r (filter (fun r => waitb ex r && (r_scheduled_at r <=? T)) rows)) by
        (apply filter_In; split; [exact Hr|]; apply andb_true_intro; split; [apply waitb_ok; exact Hw|apply Z.leb_le; exact Hle]);
      rewrite Ef in Hf; destruct Hf.
    all: assert (H0 : In r0 rows /\ waits_for ex r0 /\ r_scheduled_at r0 <= T) by
      (assert (Hf : In r0 (filter (fun r => waitb ex r && (r_scheduled_at r <=? T)) rows)) by (rewrite Ef; left; reflexivity);
       apply filter_In in Hf; destruct Hf as [Hf1 Hf2]; apply andb_prop in Hf2; destruct Hf2 as [Hf2 Hf3]; split; [exact Hf1|]; split; [apply waitb_ok; exact Hf2|apply Z.leb_le; exact Hf3]).
    all: destruct H0 as [H0 [H1 H2]].
    { exfalso. assert (Hf : In r0 (filter (waitb ex) rows)) by (apply filter_In; split; [exact H0|apply waitb_ok; exact H1]).
      destruct (filter (waitb ex) rows); [destruct Hf|cbn in Hm; lia]. }
    destruct (serve_one T w g t e wk k st r0 R Hc He H0 H1 H2) as [es1 [w1 [t1 [wk1 [st1 [pre [r [post [r' Q]]]]]]]]].
    destruct Q as [Q1 [Q2 [Q3 [Q4 [Q5 [Q6 [Q7 [Q8 [Q9 _]]]]]]]]]. fold rows in Q6. fold ex in Q8.
    assert (Er : t_rows (q_tbl (n_db (fl_net w1))) = pre ++ r' :: post) by (rewrite Q7; reflexivity).
    assert (V1 : Forall2 (served T ex) rows (t_rows (q_tbl (n_db (fl_net w1))))).
    { rewrite Q6, Er. apply Forall2_app; [apply served_refl|]. constructor; [right; auto|apply served_refl]. }
    assert (Hlen : (length (filter (waitb ex) (t_rows (q_tbl (n_db (fl_net w1))))) <= m)%nat).
    { rewrite Q6 in Hm. rewrite Er. rewrite filter_app, app_length in *. cbn [filter] in *.
      destruct (waitb ex r') eqn:E1; [apply waitb_ok in E1; destruct (done_not_waiting _ _ _ _ Q9 E1)|].
      apply waitb_ok in Q8. rewrite Q8 in Hm. cbn [length] in Hm. lia. }
    assert (Hc1 : can_do e (q_tbl (n_db (fl_net w1)))) by (eapply tended_can; [exact Hc|eapply served_tended; exact V1]).
    destruct (IH w1 g t1 e wk1 k st1 Hlen Q2 Hc1 Q4) as [es2 [w2 [t2 [wk2 [st2 [U1 [U2 [U3 [U4 [U5 [U6 U7]]]]]]]]]]].
    exists (es1 ++ es2), w2, t2, wk2, st2. split; [eapply works_trans; eassumption|]. split; [exact U2|]. split; [congruence|].
    split; [rewrite U4, Q5; reflexivity|]. split; [rewrite U5, Q7; reflexivity|]. split; [|exact U7]. eapply served_trans; eassumption.
  Qed.

  Theorem work_thm T w g t e wk : reached w -> settled w -> task_of g w = Some t -> ta_body t = BWorker e wk -> has_room e wk ->
    can_do e (q_tbl (n_db (fl_net w))) -> empty_handed g w ->
    exists es' w' wk', works T g w es' w' /\ settled w' /\ task_of g w' = Some (mk_task (ta_backend t) (ta_token t) (BWorker e wk'))
      /\ has_room e wk' /\ w_flights wk' = w_flights wk
      /\ t_next (q_tbl (n_db (fl_net w'))) = t_next (q_tbl (n_db (fl_net w)))
      /\ Forall2 (served T (ex_name (xe_consts e))) (t_rows (q_tbl (n_db (fl_net w)))) (t_rows (q_tbl (n_db (fl_net w'))))
      /\ (forall r, In r (t_rows (q_tbl (n_db (fl_net w')))) -> waits_for (ex_name (xe_consts e)) r -> T < r_scheduled_at r).
  Proof.
    intros Hr Hs Ht Eb Hp Hc He. pose proof Hr as [es H].
    destruct (stream_thm utc upcoming show hash ident t0 es w g t e wk H Ht Eb) as [k [st [E1 [E2 [_ [E4 _]]]]]].
    assert (R : ready w g t e wk k st) by (constructor; auto; apply (room_polls show); exact Hp).
    destruct (serve_all T _ w g t e wk k st (le_n _) R Hc He) as [es' [w' [t' [wk' [st' [U1 [U2 [U3 [U4 [U5 [U6 U7]]]]]]]]]]].
    exists es', w', wk'. split; [exact U1|]. destruct U2 as [R1 R2 R3 R4 R5 R6 R7 R8]. split; [exact R8|]. split; [congruence|].
    split; [apply (room_polls show); exact R4|]. auto 10.
  Qed.

  (** What other streams hold is not touched. *)
  Lemma others_empty T g w es w' g' : reached w -> settled w -> works T g w es w' -> g' <> g -> empty_handed g' w -> empty_handed g' w'.
  Proof.
    intros Hr Hs W Hne He k st a b d i o res K1 K2 K3 K4. rewrite (as_streams _ _ _ (wo_aside _ _ _ _ _ W)) in K1.
    pose proof Hr as [es0 H]. destruct (reach_good utc upcoming show hash ident t0 es0 w H) as [K [_ J]].
    assert (K2' : nth_error (n_streams (fl_net w)) k = Some st).
    { rewrite <- (wo_streams _ _ _ _ _ W); [exact K2|]. intro Hk. apply Hne. exact (f_inj _ _ _ _ _ _ _ _ J g' g k K1 Hk). }
    pose proof K2' as K2''. rewrite (k_net _ _ _ _ _ _ K) in K2''.
    destruct (yi_load _ _ (yinv_run ident t0 _) _ _ _ _ _ _ K2'' K3) as [_ [pc Hpc]]. rewrite <- (k_net _ _ _ _ _ _ K) in Hpc.
    destruct (Hs _ _ Hpc) as [res' Hres]. cbn [qc_pc] in Hres. subst pc.
    pose proof (wo_calls _ _ _ _ _ W _ _ _ Hpc) as Hpc'. assert (res' = res) by congruence. subst res'.
    exact (He k st a b d i _ res K1 K2' K3 Hpc).
  Qed.

  (** A live worker can get to where it may ask for jobs with empty hands, or else it dies. *)
  Theorem ready_thm now w g t e wk : reached w -> task_of g w = Some t -> ta_body t = BWorker e wk ->
    w_life wk = Working -> w_transit wk = None -> w_open wk = true -> w_cancelled wk = false ->
    (forall l, ex_max_concurrency (xe_consts e) = Some l -> 0 <= l) ->
    exists es' w' wk', frun w es' = Some w' /\ Forall (fun x => of_task g (n_db (fl_net w)) (snd x)) es' /\ Forall (fun x => fst x = now) es' /\ aside g w w' /\ settled w'
      /\ task_of g w' = Some (mk_task (ta_backend t) (ta_token t) (BWorker e wk'))
      /\ (w_life wk' = Crashed_worker \/ (has_room e wk' /\ w_flights wk' = [] /\ empty_handed g w')).
  Proof.
    intros Hr Ht Eb L1 L2 L3 L4 Hlim.
    assert (Room : forall x, w_life x = Working -> w_transit x = None -> w_open x = true -> w_cancelled x = false -> w_flights x = [] -> has_room e x).
    { intros x X1 X2 X3 X4 X5. unfold has_room. rewrite X5. do 4 (split; [assumption|]). destruct (ex_max_concurrency (xe_consts e)) as [l|]; [|exact Logic.I].
      specialize (Hlim l eq_refl). cbn. lia. }
    destruct (FleetLive.goes_settle utc upcoming show hash ident t0 now g w Hsd Hr) as [es1 [w1 [G1 [S1 C1]]]].
    pose proof (FleetLive.reached_more _ _ _ _ _ _ _ _ _ Hr (go_run _ _ _ _ _ _ _ _ _ _ G1)) as Hr1.
    assert (Ht1 : task_of g w1 = Some t) by (rewrite (FleetLive.co_task _ _ _ C1); exact Ht).
    destruct (FleetLive.get_idle utc upcoming show hash ident t0 now Hsd (load wk) w1 g t e wk Hr1 S1 Ht1 Eb L1 (le_n _)) as [es2 [w2 [wk2 [G2 [N2 D2]]]]].
    pose proof (FleetLive.goes_trans _ _ _ _ _ _ _ _ _ _ _ _ (or_intror S1) G1 G2) as G12.
    pose proof (go_settled _ _ _ _ _ _ _ _ _ _ G2 S1) as S2. pose proof (FleetLive.reached_more _ _ _ _ _ _ _ _ _ Hr1 (go_run _ _ _ _ _ _ _ _ _ _ G2)) as Hr2.
    pose proof G12 as [O1 O2 O3 O4 _ _].
    destruct D2 as [D2|[D1 [D2 [D3 [D4 D5]]]]].
    { exists (es1 ++ es2), w2, wk2. auto 10. }
    assert (P2 : has_room e wk2) by (apply Room; congruence).
    pose proof Hr2 as [es0 H2].
    destruct (stream_thm utc upcoming show hash ident t0 es0 w2 g _ e wk2 H2 N2 eq_refl) as [k [st [E1 [E2 [_ [E4 _]]]]]].
    destruct (s_phase st) as [|seen|seen rd d|seen rd d i|seen rd d|seen rd sl d|r] eqn:Ep.
    1,2,3,5,6,7: exists (es1 ++ es2), w2, wk2; do 6 (split; [assumption|]); right; split; [exact P2|]; split; [exact D5|];
      intros k' st' a b d' i o res K1 K2 K3 K4; assert (k' = k) as -> by congruence; assert (st' = st) as -> by congruence; congruence.
    destruct (reach_good utc upcoming show hash ident t0 es0 w2 H2) as [K _].
    pose proof E2 as E2'. rewrite (k_net _ _ _ _ _ _ K) in E2'.
    destruct (yi_load _ _ (yinv_run ident t0 _) _ _ _ _ _ _ E2' Ep) as [_ [pc Hpc]]. rewrite <- (k_net _ _ _ _ _ _ K) in Hpc.
    destruct (S2 _ _ Hpc) as [res Hres]. cbn [qc_pc] in Hres. subst pc.
    destruct (load_item res) as [it|] eqn:Ei.
    2:{ exists (es1 ++ es2), w2, wk2. do 6 (split; [assumption|]). right. split; [exact P2|]. split; [exact D5|].
        intros k' st' a b d' i' o res' K1 K2 K3 K4. assert (k' = k) as -> by congruence. assert (st' = st) as -> by congruence. assert (i' = i) as -> by congruence.
        assert (res' = res) as -> by congruence. clear -Ei. destruct res as [r|r|[[j|]|[]|]|r]; cbn in Ei; congruence. }
    (* it takes what it has *)
    assert (Hit : exists m, match it with Ok j => m = MJob j | Err err => m = MError err | Panic => False end).
    { destruct it as [j|err|]; [eauto|eauto|]. exfalso. destruct res as [r|r|[[j|]|[]|]|r]; cbn in Ei; discriminate. }
    destruct Hit as [m Hm].
    assert (R : ready w2 g _ e wk2 k st) by (constructor; [exact Hr2|exact N2|reflexivity|apply (room_polls show); exact P2|exact E1|exact E2|exact E4|exact S2]).
    assert (Es : exists evs, pstream_step now (n_db (fl_net w2)) k st = (PYield it, None, evs)).
    { unfold pstream_step. rewrite Ep, Hpc, Ei. destruct it; eexists; reflexivity. }
    destruct Es as [evs Es].
    destruct (yields_item now g w2 _ e wk2 k st it evs m R Es Hm) as [w3 [W3 [Y1 [Y2 [Y3 [Y4 Y5]]]]]]. cbn [ta_backend ta_token] in Y2.
    assert (S3 : settled w3) by (unfold settled; rewrite Y5; exact S2).
    destruct (FleetLive.get_idle utc upcoming show hash ident t0 now Hsd (load (push_flight m wk2)) w3 g _ e (push_flight m wk2) Y1 S3 Y2 eq_refl D1 (le_n _)) as [es4 [w4 [wk4 [G4 [N4 F4]]]]].
    cbn [ta_backend ta_token] in N4.
    exists ((es1 ++ es2) ++ [(now, FPoll g)] ++ es4), w4, wk4.
    split; [eapply run2; [exact O1|]; eapply run2; [exact (wo_run _ _ _ _ _ W3)|exact (go_run _ _ _ _ _ _ _ _ _ _ G4)]|].
    split.
    { apply Forall_app. split; [exact O2|]. apply Forall_app. split; [exact (wo_own _ _ _ _ _ W3 _)|].
      eapply calm_own; [|exact (go_own _ _ _ _ _ _ _ _ _ _ G4)]. intro i'. apply settled_untorn, S3. }
    split; [apply Forall_app; split; [exact O3|]; apply Forall_app; split; [repeat constructor|exact (go_at _ _ _ _ _ _ _ _ _ _ G4)]|].
    split; [eapply FleetLive.aside_trans; [exact O4|]; eapply FleetLive.aside_trans; [exact (wo_aside _ _ _ _ _ W3)|exact (go_aside _ _ _ _ _ _ _ _ _ _ G4)]|].
    split; [exact (go_settled _ _ _ _ _ _ _ _ _ _ G4 S3)|]. split; [exact N4|].
    destruct F4 as [F4|[F1 [F2 [F3 [F4 F5]]]]]; [left; exact F4|right]. cbn [push_flight w_open w_cancelled w_transit] in F2, F3, F4.
    split; [apply Room; congruence|]. split; [exact F5|].
    eapply yield_empty; [rewrite (as_streams _ _ _ (go_aside _ _ _ _ _ _ _ _ _ _ G4)); exact Y3|rewrite (go_net _ _ _ _ _ _ _ _ _ _ G4); exact Y4|reflexivity].
  Qed.

  (** All the workers, one after the other. *)
  Lemma all_work T w : reached w -> settled w ->
    (forall g t e wk, task_of g w = Some t -> ta_body t = BWorker e wk -> has_room e wk -> can_do e (q_tbl (n_db (fl_net w))) /\ empty_handed g w) ->
    forall n, exists es' w', frun w es' = Some w' /\ Forall (fun x => exists g, forall s, of_task g s (snd x)) es' /\ Forall (fun x => T <= fst x) es'
      /\ settled w' /\ fl_places w' = fl_places w /\ fl_streams w' = fl_streams w
      /\ t_next (q_tbl (n_db (fl_net w'))) = t_next (q_tbl (n_db (fl_net w)))
      /\ (forall g t, task_of g w = Some t -> exists t', task_of g w' = Some t' /\ ta_backend t' = ta_backend t /\ ta_token t' = ta_token t
             /\ (t' = t \/ exists e wk wk', ta_body t = BWorker e wk /\ ta_body t' = BWorker e wk' /\ has_room e wk /\ has_room e wk' /\ w_flights wk' = w_flights wk)
             /\ ((n <= g)%nat -> t' = t))
      /\ (forall g, (n <= g)%nat -> empty_handed g w -> empty_handed g w')
      /\ Forall2 (tended T) (t_rows (q_tbl (n_db (fl_net w)))) (t_rows (q_tbl (n_db (fl_net w'))))
      /\ (forall g t e wk r, (g < n)%nat -> task_of g w = Some t -> ta_body t = BWorker e wk -> has_room e wk ->
           In r (t_rows (q_tbl (n_db (fl_net w')))) -> waits_for (ex_name (xe_consts e)) r -> T < r_scheduled_at r).
  Proof.
    intros Hr Hs Hwk. induction n as [|n [es1 [w1 [R1 [B1 [L1 [S1 [P1 [M1 [X1 [T1 [Y1 [V1 D1]]]]]]]]]]]]].
    - exists [], w. split; [reflexivity|]. split; [constructor|]. split; [constructor|]. split; [exact Hs|]. do 3 (split; [reflexivity|]).
      split; [intros g t Ht; exists t; repeat split; auto|]. split; [auto|]. split; [apply tended_refl|]. intros; lia.
    - pose proof (FleetLive.reached_more _ _ _ _ _ _ _ _ _ Hr R1) as Hr1.
      assert (Skip : (forall t e wk, task_of n w = Some t -> ta_body t = BWorker e wk -> ~ has_room e wk) ->
        (forall g t, task_of g w = Some t -> exists t', task_of g w1 = Some t' /\ ta_backend t' = ta_backend t /\ ta_token t' = ta_token t
             /\ (t' = t \/ exists e wk wk', ta_body t = BWorker e wk /\ ta_body t' = BWorker e wk' /\ has_room e wk /\ has_room e wk' /\ w_flights wk' = w_flights wk)
             /\ ((S n <= g)%nat -> t' = t))
        /\ (forall g, (S n <= g)%nat -> empty_handed g w -> empty_handed g w1)
        /\ (forall g t e wk r, (g < S n)%nat -> task_of g w = Some t -> ta_body t = BWorker e wk -> has_room e wk ->
           In r (t_rows (q_tbl (n_db (fl_net w1)))) -> waits_for (ex_name (xe_consts e)) r -> T < r_scheduled_at r)).
      { intro Hno. split; [|split].
        - intros g t Ht. destruct (T1 g t Ht) as [t' [Q1 [Q2 [Q3 [Q4 Q5]]]]]. exists t'. do 4 (split; [assumption|]). intro; apply Q5; lia.
        - intros g Hg. apply Y1. lia.
        - intros g t e wk r Hg Ht Eb Hk. destruct (Nat.eq_dec g n) as [->|Hne]; [destruct (Hno t e wk Ht Eb Hk)|]. eapply D1; eauto; lia. }
      assert (Done : (forall t e wk, task_of n w = Some t -> ta_body t = BWorker e wk -> ~ has_room e wk) -> exists es' w',
        frun w es' = Some w' /\ Forall (fun x => exists g, forall s, of_task g s (snd x)) es' /\ Forall (fun x => T <= fst x) es'
      /\ settled w' /\ fl_places w' = fl_places w /\ fl_streams w' = fl_streams w
      /\ t_next (q_tbl (n_db (fl_net w'))) = t_next (q_tbl (n_db (fl_net w)))
      /\ (forall g t, task_of g w = Some t -> exists t', task_of g w' = Some t' /\ ta_backend t' = ta_backend t /\ ta_token t' = ta_token t
             /\ (t' = t \/ exists e wk wk', ta_body t = BWorker e wk /\ ta_body t' = BWorker e wk' /\ has_room e wk /\ has_room e wk' /\ w_flights wk' = w_flights wk)
             /\ ((S n <= g)%nat -> t' = t))
      /\ (forall g, (S n <= g)%nat -> empty_handed g w -> empty_handed g w')
      /\ Forall2 (tended T) (t_rows (q_tbl (n_db (fl_net w)))) (t_rows (q_tbl (n_db (fl_net w'))))
      /\ (forall g t e wk r, (g < S n)%nat -> task_of g w = Some t -> ta_body t = BWorker e wk -> has_room e wk ->
           In r (t_rows (q_tbl (n_db (fl_net w')))) -> waits_for (ex_name (xe_consts e)) r -> T < r_scheduled_at r)).
      { intro Hno. destruct (Skip Hno) as [Z1 [Z2 Z3]]. exists es1, w1. do 7 (split; [assumption|]). auto. }
      clear Skip. destruct (task_of n w) as [t|] eqn:Ht; [|apply Done; discriminate].
      destruct (ta_body t) as [e wk|e sc z data tk|sc cfg tk] eqn:Eb; [|apply Done; intros u e0 wk0 E0; injection E0 as <-; congruence..].
      destruct (polls e wk) eqn:Ep; [|apply Done; intros u e0 wk0 E0; injection E0 as <-; intros E0; rewrite Eb in E0; injection E0 as <- <-;
                                     rewrite (room_polls show); congruence].
      clear Done. apply (room_polls show) in Ep.
      destruct (T1 n t Ht) as [t1 [Q1 [_ [_ [_ Q5]]]]]. specialize (Q5 (le_n _)). subst t1.
      destruct (Hwk n t e wk Ht Eb Ep) as [Hc He].
      assert (Hc1 : can_do e (q_tbl (n_db (fl_net w1)))) by (eapply tended_can; [exact Hc|exact V1]).
      destruct (work_thm T w1 n t e wk Hr1 S1 Q1 Eb Ep Hc1 (Y1 n (le_n _) He)) as [es2 [w2 [wk2 [W2 [S2 [N2 [Tk2 [F2 [X2 [V2 Z2]]]]]]]]]].
      pose proof W2 as [O1 O2 O3 O4 O5 O6].
      exists (es1 ++ es2), w2. split; [eapply run2; eassumption|].
      split; [apply Forall_app; split; [exact B1|]; apply Forall_forall; intros x Hx; exists n; intro s; exact (proj1 (Forall_forall _ _) (O2 s) x Hx)|].
      split; [apply Forall_app; split; assumption|]. split; [exact S2|]. split; [rewrite (as_places _ _ _ O4); exact P1|]. split; [rewrite (as_streams _ _ _ O4); exact M1|].
      split; [congruence|]. split; [|split; [|split]].
      + intros g u Hu. destruct (T1 g u Hu) as [t1 [Q2 [Q3 [Q4 [Q5 Q6]]]]]. destruct (Nat.eq_dec g n) as [->|Hne].
        * assert (u = t) as -> by congruence. exists (mk_task (ta_backend t) (ta_token t) (BWorker e wk2)). split; [exact N2|].
          split; [reflexivity|]. split; [reflexivity|]. split; [right; exists e, wk, wk2; auto 10|intro; lia].
        * exists t1. split; [rewrite (as_others _ _ _ O4) by exact Hne; exact Q2|]. do 3 (split; [assumption|]). intro. apply Q6. lia.
      + intros g Hg Hge. eapply others_empty; [exact Hr1|exact S1|exact W2|lia|]. apply Y1; [lia|exact Hge].
      + eapply tended_trans; [exact V1|eapply served_tended; exact V2].
      + intros g u e0 wk0 r Hg Hu Eb0 Hk0 Hx Hpx. destruct (Nat.eq_dec g n) as [->|Hne].
        * assert (u = t) as -> by congruence. rewrite Eb in Eb0. injection Eb0 as <- <-. exact (Z2 r Hx Hpx).
        * refine (D1 g u e0 wk0 r ltac:(lia) Hu Eb0 Hk0 _ Hpx). eapply tended_back; [eapply served_tended; exact V2|exact Hx|exact Hpx].
  Qed.
End Work.
