(** Properties of workers on Postgres: announcements, wake-ups, sleeping and hand-outs.  Every theorem
    is about all executions from a table as the database keeps it: any processes, streams and calls, in
    any order, failing at any moment. *)
From Verif Require Import Base Chrono Types TypesProofs Query Memory MemSpec Samples MemWake Ticker PgRow PgQuery FxHash Pg PgSpec
  PgProofs PgOps PropsPg PgHist PgConc PgConcSpec PgConcProofs PgConcHist PgConcUniq PgConcLive PgConcPast PropsPgConc PropsEdge
  PgListen PgListenSpec PgListenProofs.

(** * Samples *)

(** Process 0 with a stream for [mail]; a job is enqueued and loaded. *)
Definition steps (k : nat) (n : nat) (now : Z) : list nlabel := repeat (NStream k (now * ms)) n.
Definition db (l : list qlabel) : list nlabel := map NDb l.
Definition ls_start : list nlabel := [NOpen; NSubscribe 0 mail] ++ steps 0 3 1.
(** The stream sleeps; a job is enqueued but its announcement not yet passed on. *)
Definition ls_asleep : list nlabel := ls_start ++ db (QCall (OpEnqueue (req mail 0 (5 * ms))) :: run_i 0 4 2).
(** It is woken and loads the job. *)
Definition ls_woken : list nlabel :=
  ls_asleep ++ [NDeliver 0; NRecv 0] ++ steps 0 3 6 ++ db (run_i 1 6 3) ++ steps 0 1 6.

(** * C72 Announcements and wake-ups *)

(** Every insert and every change that leaves a row waiting is announced to every process, and nothing
    else is. *)
Theorem C72_announced : forall ident s q c cl,
  nth_error (n_clients s) c = Some cl ->
  exists notes, nth_error (n_clients (fst (nstep ident s (NDb q)))) c = Some (mk_client (cl_listening cl) (cl_inbox cl ++ notes))
    /\ forall n, In n notes <->
         exists r, row_waits r /\ n_executor n = r_executor r /\ n_at n = r_scheduled_at r
           /\ exists ev, In (NvDb ev) (snd (nstep ident s (NDb q)))
              /\ ((exists i, ev = QvInsert i r) \/ (exists i o b, ev = QvWrite i o b r)).
Proof.
  intros ident s q c cl Hc. cbn [nstep]. unfold db_step. destruct (qstep ident (n_db s) q) as [d evs]. cbn [fst snd n_clients].
  exists (flat_map event_notes evs). split; [rewrite nth_error_map, Hc; reflexivity|].
  assert (Hn : forall r n, In n (row_note r) <-> row_waits r /\ n_executor n = r_executor r /\ n_at n = r_scheduled_at r).
  { intros r [e a]. unfold row_note, row_waits. destruct (String.eqb_spec (r_status r) "scheduled") as [E|E];
      [|destruct (String.eqb_spec (r_status r) "retryable") as [E'|E']]; cbn.
    - split; [intros [H|[]]; injection H as <- <-; auto|intros [_ [-> ->]]; auto].
    - split; [intros [H|[]]; injection H as <- <-; auto|intros [_ [-> ->]]; auto].
    - split; [intros []|intros [[H|H] _]; contradiction]. }
  intro n. rewrite in_flat_map. split.
  - intros [ev [Hev H]]. destruct ev as [i r|i o b r|i l]; cbn [event_notes] in H; [| |destruct H];
      apply Hn in H; destruct H as [H1 [H2 H3]]; exists r; (split; [exact H1|]); (split; [exact H2|]); (split; [exact H3|]);
      eexists; (split; [apply in_map; exact Hev|]); [left|right]; eauto.
  - intros [r [H1 [H2 [H3 [ev [Hev H]]]]]]. apply in_map_iff in Hev. destruct Hev as [ev' [E Hev]]. injection E as ->.
    exists ev. split; [exact Hev|]. destruct H as [[i ->]|[i [o [b ->]]]]; cbn [event_notes]; apply Hn; auto.
Qed.
Print Assumptions C72_announced.

(** The listener passes an announcement on to the streams of its process that work for the executor,
    and to no others. *)
Theorem C72_passed_on : forall ident s c n rest k st,
  nth_error (n_clients s) c = Some (mk_client true (n :: rest)) -> nth_error (n_streams s) k = Some st ->
  let s' := fst (nstep ident s (NDeliver c)) in
  (nth_error (n_clients s') c = Some (mk_client true rest) ->
   nth_error (n_streams s') k =
     Some (mk_pstream (s_client st) (s_executor st)
             (if Nat.eq_dec (s_client st) c then if string_dec (s_executor st) (n_executor n) then s_queue st ++ [n_at n] else s_queue st
              else s_queue st) (s_phase st)))
  /\ n_db s' = n_db s /\ forall c', c' <> c -> nth_error (n_clients s') c' = nth_error (n_clients s) c'.
Proof.
  intros ident s c n rest k st Hc Hk s'. unfold s'. cbn [nstep]. rewrite Hc.
  destruct (note_readable n); cbn [fst n_clients n_streams n_db]; (split; [|split; [reflexivity|]]).
  - intros _. rewrite nth_error_map, Hk. cbn [option_map]. f_equal. unfold pass_on.
    destruct (Nat.eqb_spec (s_client st) c) as [E|E], (Nat.eq_dec (s_client st) c); try contradiction; cbn [andb]; [|destruct st; reflexivity].
    destruct (String.eqb_spec (s_executor st) (n_executor n)) as [E1|E1], (string_dec (s_executor st) (n_executor n)); try contradiction; [reflexivity|destruct st; reflexivity].
  - intros c' Hne. rewrite set_nth_nth. destruct (Nat.eqb_spec c c') as [->|_]; [contradiction|reflexivity].
  - rewrite set_nth_nth, Nat.eqb_refl, Hc. discriminate.
  - intros c' Hne. rewrite set_nth_nth. destruct (Nat.eqb_spec c c') as [->|_]; [contradiction|reflexivity].
Qed.
Print Assumptions C72_passed_on.

(** The listener survives an announcement exactly when the job is scheduled in the years 1 to 9999;
    [start] is any numbering of the days in which years have their lengths. *)
Theorem C72_listener_survives : forall ident s c n rest start,
  start 1970 = 0 -> (forall y, leap y -> start (y + 1) = start y + 366) -> (forall y, ~ leap y -> start (y + 1) = start y + 365) ->
  nth_error (n_clients s) c = Some (mk_client true (n :: rest)) ->
  let s' := fst (nstep ident s (NDeliver c)) in
  let day := 24 * 60 * 60 * 1000000000 in
  exists alive, nth_error (n_clients s') c = Some (mk_client alive rest)
    /\ (alive = true <-> start 1 * day <= n_at n < start 10000 * day).
Proof.
  intros ident s c n rest start H0 Hl Hn Hc s' day. unfold s'. cbn [nstep]. rewrite Hc. rewrite !(calendar start H0 Hl Hn).
  exists (note_readable n). split.
  - destruct (note_readable n); cbn [fst n_clients]; rewrite set_nth_nth, Nat.eqb_refl, Hc; reflexivity.
  - unfold note_readable. rewrite andb_true_iff, Z.leb_le, Z.ltb_lt. reflexivity.
Qed.
Print Assumptions C72_listener_survives.

Example C72_announced_sample :
  let s := nrun fx_identifier (n_found tbl_init) ls_asleep in
  nth_error (n_clients s) 0 = Some (mk_client true [mk_note mail (5 * ms)])
  /\ nth_error (n_streams s) 0 = Some (mk_pstream 0 mail [] (PWait None (1 * ms) (1 * ms) (30 * 1000000000)))
  /\ nth_error (n_streams (nrun fx_identifier s [NDeliver 0])) 0 = Some (mk_pstream 0 mail [5 * ms] (PWait None (1 * ms) (1 * ms) (30 * 1000000000))).
Proof. vm_compute. auto. Qed.

(** No wake-up is lost: a sleeping stream without a message whose executor has a waiting row has its
    timer set to when the row is due (or within 15 ms of its last look at the clock), or an
    announcement is on its way.  What is missing: the connection of the listener has not been broken
    and every announcement so far was readable. *)
Theorem C72_no_lost_wake_up_partial : forall ident t ls k st cl seen read slept d r,
  sound_table t ->
  let s := nrun ident (n_found t) ls in
  nth_error (n_streams s) k = Some st -> s_phase st = PWait seen read slept d -> s_queue st = [] ->
  nth_error (n_clients s) (s_client st) = Some cl -> cl_listening cl = true -> ~ In (NLost (s_client st)) ls ->
  In r (t_rows (q_tbl (n_db s))) -> row_waits r -> r_executor r = s_executor st ->
  read + d <= Z.max (r_scheduled_at r) (read + 15 * 1000000)
  \/ exists n, In n (cl_inbox cl) /\ n_executor n = s_executor st.
Proof.
  intros ident t ls k st cl seen read slept d r Ht s Hk Hp Hq Hc Hl Hno Hr Hw He.
  assert (Hs : has_seen st seen) by (unfold has_seen; rewrite Hp; reflexivity).
  destruct (all_told ident t ls Ht k st cl Hk Hc Hl Hno seen Hs r Hr Hw He) as [[ts [-> Hts]]|[H|H]]; [left|congruence|right; exact H].
  pose proof (all_timed ident t ls k st Hk) as Htm. unfold timed in Htm. rewrite Hp in Htm. subst d.
  destruct (pg_delay_bounds (Some ts) read) as [_ H]. specialize (H ts eq_refl). lia.
Qed.
Print Assumptions C72_no_lost_wake_up_partial.

Example C72_no_lost_wake_up_sample :
  let s := nrun fx_identifier (n_found tbl_init) ls_asleep in
  exists st cl r, nth_error (n_streams s) 0 = Some st /\ s_phase st = PWait None (1 * ms) (1 * ms) (30 * 1000000000) /\ s_queue st = []
    /\ nth_error (n_clients s) (s_client st) = Some cl /\ cl_listening cl = true /\ ~ In (NLost (s_client st)) ls_asleep
    /\ In r (t_rows (q_tbl (n_db s))) /\ row_waits r /\ r_executor r = s_executor st.
Proof.
  cbv zeta. exists (mk_pstream 0 mail [] (PWait None (1 * ms) (1 * ms) (30 * 1000000000))), (mk_client true [mk_note mail (5 * ms)]).
  assert (E : t_rows (q_tbl (n_db (nrun fx_identifier (n_found tbl_init) ls_asleep))) = [new_row (4 * ms) 1 None (req mail 0 (5 * ms))]) by (vm_compute; reflexivity).
  eexists. split; [vm_compute; reflexivity|]. split; [reflexivity|]. split; [reflexivity|]. split; [vm_compute; reflexivity|]. split; [reflexivity|].
  split; [cbn; intuition discriminate|]. split; [rewrite E; left; reflexivity|]. split; [left; reflexivity|reflexivity].
Qed.

(** Full property refuted: one job scheduled in the year 10000 ends the listener of every process that
    hears of it.  Afterwards a stream sleeps for 30 s although a job is due in 5 ms, and delivering
    announcements no longer helps. *)
Definition year_10000 : time := 253402300800 * 1000000000.
Definition ls_deaf : list nlabel :=
  [NOpen; NSubscribe 0 mail] ++ db (QCall (OpEnqueue (req mail 0 year_10000)) :: run_i 0 1 2) ++ [NDeliver 0] ++ steps 0 3 1
  ++ db (QCall (OpEnqueue (req mail 0 (6 * ms))) :: run_i 1 2 2).
Theorem C72_no_lost_wake_up_refuted : exists ls st r read slept d,
  let s := nrun fx_identifier (n_found tbl_init) ls in
  (forall c, ~ In (NLost c) ls /\ ~ In (NClosed c) ls)
  /\ nth_error (n_streams s) 0 = Some st /\ s_phase st = PWait (Some year_10000) read slept d
  /\ In r (t_rows (q_tbl (n_db s))) /\ row_waits r /\ r_executor r = s_executor st
  /\ r_scheduled_at r = read + 5 * 1000000 /\ d = 30 * 1000000000
  /\ forall n, nth_error (n_streams (nrun fx_identifier s (repeat (NDeliver 0) n))) 0 = Some st /\ s_queue st = [].
Proof.
  exists ls_deaf, (mk_pstream 0 mail [] (PWait (Some year_10000) (1 * ms) (1 * ms) (30 * 1000000000))).
  set (s := nrun fx_identifier (n_found tbl_init) ls_deaf).
  assert (E : t_rows (q_tbl (n_db s)) = [new_row (1 * ms) 1 None (req mail 0 year_10000); new_row (2 * ms) 2 None (req mail 0 (6 * ms))]) by (vm_compute; reflexivity).
  assert (Es : n_streams s = [mk_pstream 0 mail [] (PWait (Some year_10000) (1 * ms) (1 * ms) (30 * 1000000000))]) by (vm_compute; reflexivity).
  assert (Ec : n_clients s = [mk_client false [mk_note mail (6 * ms)]]) by (vm_compute; reflexivity).
  exists (new_row (2 * ms) 2 None (req mail 0 (6 * ms))), (1 * ms), (1 * ms), (30 * 1000000000). cbv zeta. fold s.
  split; [intro c; cbn; intuition discriminate|]. split; [rewrite Es; reflexivity|]. split; [reflexivity|].
  split; [rewrite E; right; left; reflexivity|]. split; [left; reflexivity|]. split; [reflexivity|]. split; [reflexivity|]. split; [reflexivity|].
  intro n. split; [|reflexivity].
  assert (Hd : fst (nstep fx_identifier s (NDeliver 0)) = s) by (cbn [nstep]; rewrite Ec; reflexivity).
  assert (Hn : nrun fx_identifier s (repeat (NDeliver 0) n) = s) by (induction n as [|n IH]; [reflexivity|]; cbn [repeat nrun]; rewrite Hd; exact IH).
  rewrite Hn, Es. reflexivity.
Qed.
Print Assumptions C72_no_lost_wake_up_refuted.

(** * C73 Sleeping *)

(** Whatever happens to the listener, a stream never sleeps for more than 30 s, nor past the time of
    the earliest waiting row it saw (or 15 ms, if that was due). *)
Theorem C73_sleep_bounded : forall ident t ls k st seen read slept d,
  nth_error (n_streams (nrun ident (n_found t) ls)) k = Some st -> s_phase st = PWait seen read slept d ->
  0 <= d <= 30 * 1000000000 /\ forall ts, seen = Some ts -> read + d <= Z.max ts (read + 15 * 1000000).
Proof.
  intros ident t ls k st seen read slept d Hk Hp. pose proof (all_timed ident t ls k st Hk) as Htm. unfold timed in Htm.
  rewrite Hp in Htm. subst d. apply pg_delay_bounds.
Qed.
Print Assumptions C73_sleep_bounded.

(** What it saw is the earliest waiting row of its executor. *)
Theorem C73_sees_earliest : forall ident s k st now st' t,
  nth_error (n_streams s) k = Some st -> s_phase st = PCheck ->
  nth_error (n_streams (fst (nstep ident s (NStream k now)))) k = Some st' -> s_phase st' = PGot t ->
  (forall r, In r (t_rows (q_tbl (n_db s))) -> row_waits r -> r_executor r = s_executor st ->
     exists ts, t = Some ts /\ ts <= r_scheduled_at r)
  /\ (forall ts, t = Some ts -> exists r, In r (t_rows (q_tbl (n_db s))) /\ row_waits r /\ r_executor r = s_executor st
        /\ r_scheduled_at r = ts).
Proof.
  intros ident s k st now st' t Hk Hp H Hp'. cbn [nstep] in H. rewrite Hk in H. unfold pstream_step in H. rewrite Hp in H. cbn [fst n_streams] in H.
  rewrite set_nth_nth, Nat.eqb_refl, Hk in H. injection H as <-. cbn [set_phase s_phase] in Hp'.
  destruct (pg_next_available (s_executor st) (q_tbl (n_db s))) as [t'|e|] eqn:E; try discriminate Hp'. injection Hp' as ->.
  exact (next_available_rows _ _ _ E).
Qed.
Print Assumptions C73_sees_earliest.

(** It looks whenever its timer has run out, and not before unless it gets a message. *)
Theorem C73_timer : forall ident s k st seen read slept d now,
  nth_error (n_streams s) k = Some st -> s_phase st = PWait seen read slept d ->
  nth_error (n_streams (fst (nstep ident s (NStream k now)))) k
  = Some (mk_pstream (s_client st) (s_executor st) (s_queue st) (if slept + d <=? now then PCheck else PWait seen read slept d))
  /\ nth_error (n_streams (fst (nstep ident s (NRecv k)))) k
     = Some (match s_queue st with [] => st | _ :: q => mk_pstream (s_client st) (s_executor st) q PCheck end).
Proof.
  intros ident s k st seen read slept d now Hk Hp. split.
  - cbn [nstep]. rewrite Hk. unfold pstream_step. rewrite Hp. cbn [fst n_streams]. rewrite set_nth_nth, Nat.eqb_refl, Hk. reflexivity.
  - cbn [nstep]. rewrite Hk. destruct st as [c ex q ph]. cbn in Hp. subst ph. destruct q as [|m q]; [exact Hk|].
    cbn [fst n_streams]. rewrite set_nth_nth, Nat.eqb_refl, Hk. reflexivity.
Qed.
Print Assumptions C73_timer.

(** After looking: a job due within 15 ms is tried for at once; otherwise the stream sleeps until it is
    due, but at most 30 s, which it also does when nothing waits. *)
Theorem C73_sleep_or_try : forall ident s k st seen now,
  nth_error (n_streams s) k = Some st -> s_phase st = PGot seen ->
  exists ph, nth_error (n_streams (fst (nstep ident s (NStream k now)))) k = Some (mk_pstream (s_client st) (s_executor st) (s_queue st) ph)
    /\ match seen with
       | None => ph = PSelect None now 30000000000
       | Some t =>
           (t < now -> ph = PTry seen now 15000000)
           /\ (now <= t <= now + 15000000 -> ph = PTry seen now (t - now))
           /\ (now + 15000000 < t <= now + 30000000000 -> ph = PSelect seen now (t - now))
           /\ (now + 30000000000 < t -> ph = PSelect seen now 30000000000)
       end.
Proof.
  intros ident s k st seen now Hk Hp. cbn [nstep]. rewrite Hk. unfold pstream_step. rewrite Hp. cbn [fst n_streams].
  rewrite set_nth_nth, Nat.eqb_refl, Hk. eexists. split; [reflexivity|].
  destruct seen as [t|]; [|reflexivity]. unfold pg_delay, to_std, dt_diff. change pg_delta with 15000000. change pg_default_delay with 30000000000.
  repeat split; intro H.
  - replace (t - now <? 0) with true by (symmetry; apply Z.ltb_lt; lia). reflexivity.
  - replace (t - now <? 0) with false by (symmetry; apply Z.ltb_ge; lia). rewrite Z.min_l by lia.
    replace (t - now <=? 15000000) with true by (symmetry; apply Z.leb_le; lia). reflexivity.
  - replace (t - now <? 0) with false by (symmetry; apply Z.ltb_ge; lia). rewrite Z.min_l by lia.
    replace (t - now <=? 15000000) with false by (symmetry; apply Z.leb_gt; lia). reflexivity.
  - replace (t - now <? 0) with false by (symmetry; apply Z.ltb_ge; lia). rewrite Z.min_r by lia. reflexivity.
Qed.
Print Assumptions C73_sleep_or_try.

Example C73_sample :
  let s := nrun fx_identifier (n_found tbl_init) (ls_asleep ++ [NDeliver 0; NRecv 0]) in
  nth_error (n_streams s) 0 = Some (mk_pstream 0 mail [] PCheck)
  /\ nth_error (n_streams (nrun fx_identifier s (steps 0 1 6))) 0 = Some (mk_pstream 0 mail [] (PGot (Some (5 * ms))))
  /\ nth_error (n_streams (nrun fx_identifier s (steps 0 2 6))) 0 = Some (mk_pstream 0 mail [] (PTry (Some (5 * ms)) (6 * ms) (15 * ms))).
Proof. vm_compute. auto. Qed.

(** * C74 What workers are given *)

(** However many streams there are in however many processes, a job is given to a worker at most once,
    and once more for each time it was made to wait again. *)
Theorem C74_given_once : forall ident t ls id, sound_table t ->
  (times_given id (ntrace ident (n_found t) ls) <= 1 + times_freed id (ntrace ident (n_found t) ls))%nat.
Proof. exact given_once. Qed.
Print Assumptions C74_given_once.

(** What a stream gives its worker is the row handed out by the stream's own call, for its own executor
    and as that call left it. *)
Theorem C74_given_as_handed_out : forall ident t ls k i j,
  In (NvYield k i j) (ntrace ident (n_found t) ls) ->
  exists ex b a, In (NvDb (QvWrite i (OpLoad ex) b a)) (ntrace ident (n_found t) ls) /\ r_id b = j_id j /\ represents a j.
Proof.
  intros ident t ls k i j H. destruct (yield_taken ident t ls k i j H) as [ex [b [a [H1 [H2 H3]]]]]. exists ex, b, a.
  split; [|split; [exact H2|apply represents_iff, H3]]. unfold db_events in H1. apply in_flat_map in H1. destruct H1 as [ev [Hev Hi]].
  destruct ev as [e|]; [|destruct Hi]. destruct Hi as [->|[]]. exact Hev.
Qed.
Print Assumptions C74_given_as_handed_out.

Example C74_given_sample :
  times_given 1 (ntrace fx_identifier (n_found tbl_init) ls_woken) = 1%nat
  /\ times_given 1 (ntrace fx_identifier (n_found tbl_init)
       (ls_woken ++ db (QCall (OpRetryable 1 (8 * ms) boom) :: run_i 2 8 2) ++ steps 0 4 9 ++ db (run_i 3 9 3) ++ steps 0 1 9)) = 2%nat.
Proof. vm_compute. auto. Qed.

(** * C75 Workers get due jobs *)

(** A stream that looks when a job is due, while nobody holds a row, gives its worker a due job, and
    none that another due job is preferred to. *)
Lemma runs_db ident s qs : nrun ident s (db qs) = mk_n (qrun ident (n_db s) qs) (n_clients (nrun ident s (db qs))) (n_streams s).
Proof.
  revert s. induction qs as [|q qs IH]; intro s; [destruct s; reflexivity|]. cbn [db map nrun]. fold (db qs). rewrite IH.
  cbn [nstep]. unfold db_step. cbn [qrun]. destruct (qstep ident (n_db s) q) as [d evs]. reflexivity.
Qed.
Theorem C75_hands_out_when_due : forall ident t ls k st js now j,
  sound_table t ->
  let s := nrun ident (n_found t) ls in
  let i := length (q_calls (n_db s)) in
  nth_error (n_streams s) k = Some st -> s_phase st = PCheck ->
  holds_jobs (q_tbl (n_db s)) js -> kept_time now -> clean (s_executor st) ->
  (forall x, In x js -> due now (s_executor st) x -> -2147483648 <= j_attempt x < 2147483647) ->
  In j js -> MemSpec.waiting j -> j_executor j = s_executor st -> j_scheduled_at j <= now + 15 * 1000000 ->
  undisturbed ident i (n_db s) ->
  exists n j', In j' js /\ due now (s_executor st) j' /\ (forall x, In x js -> due now (s_executor st) x -> ~ pg_before x j')
    /\ let ls' := repeat (NStream k now) 3 ++ db (repeat (QRun i now 0) n) ++ [NStream k now] in
       nth_error (n_streams (nrun ident s ls')) k
         = Some (mk_pstream (s_client st) (s_executor st) (s_queue st) (PYield (Ok (after_hand_out now j'))))
       /\ In (NvYield k i (after_hand_out now j')) (ntrace ident s ls').
Proof.
  intros ident t ls k st js now j Ht s i Hk Hp Hjs Hnow Hex Hat Hj Hw He Hd Hun.
  pose proof (found_inv ident t ls Ht) as Hinv. fold s in Hinv.
  destruct (projection ident (n_found t) ls) as [qs [Eq _]]. fold s in Eq. change (n_db (n_found t)) with (opened t) in Eq.
  (* the first three steps *)
  assert (Hnext : exists ts, pg_next_available (s_executor st) (q_tbl (n_db s)) = Ok (Some ts) /\ ts <= now + 15000000).
  { destruct (pg_next_available (s_executor st) (q_tbl (n_db s))) as [o|e|] eqn:E.
    - assert (Hrow : exists r, In r (t_rows (q_tbl (n_db s))) /\ represents r j).
      { clear -Hjs Hj. unfold holds_jobs in Hjs. induction Hjs as [|r x l js' Hr Hf IH]; [destruct Hj|]. destruct Hj as [->|Hj]; [exists r; cbn; auto|].
        destruct (IH Hj) as [r' [H1 H2]]. exists r'. cbn. auto. }
      destruct Hrow as [r [Hr Hrep]]. pose proof Hrep as Hf. apply represents_iff in Hf. unfold job_of_row in Hf.
      destruct (status_of_label (r_status r)) as [z|] eqn:Es; [|discriminate]. destruct (collect (map read_error (r_errors r))); [|discriminate]. injection Hf as Hf.
      assert (Hrw : row_waits r).
      { assert (z = j_status j) by (rewrite <- Hf; reflexivity). subst z. unfold status_of_label in Es.
        destruct (String.eqb_spec (r_status r) "complete"); [injection Es as Es; destruct Hw; congruence|].
        destruct (String.eqb_spec (r_status r) "executing"); [injection Es as Es; destruct Hw; congruence|].
        destruct (String.eqb_spec (r_status r) "scheduled"); [left; assumption|].
        destruct (String.eqb_spec (r_status r) "retryable"); [right; assumption|].
        destruct (String.eqb_spec (r_status r) "cancelled"); [injection Es as Es; destruct Hw; congruence|].
        destruct (String.eqb_spec (r_status r) "discarded"); [injection Es as Es; destruct Hw; congruence|discriminate]. }
      destruct (next_available_rows _ _ _ E) as [H _]. destruct (H r Hr Hrw) as [ts [-> Hts]]; [rewrite <- He, <- Hf; reflexivity|].
      exists ts. split; [reflexivity|]. assert (j_scheduled_at j = r_scheduled_at r) by (rewrite <- Hf; reflexivity). lia.
    - exfalso. unfold pg_next_available in E. apply storable_clean in Hex. rewrite Hex in E. discriminate.
    - exfalso. unfold pg_next_available in E. apply storable_clean in Hex. rewrite Hex in E. discriminate. }
  destruct Hnext as [ts [Hnext Hts]].
  set (dl := pg_delay (Some ts) now).
  assert (Hdl : dl <=? pg_delta = true).
  { apply Z.leb_le. unfold dl, pg_delay, to_std, dt_diff. change pg_delta with 15000000. change pg_default_delay with 30000000000.
    destruct (Z.ltb_spec (ts - now) 0); lia. }
  set (s3 := mk_n (mk_q (q_tbl (n_db s)) (q_calls (n_db s) ++ [mk_qcall (OpLoad (s_executor st)) QStart])) (n_clients s)
               (set_nth k (set_phase (PLoading (Some ts) now dl i) st) (n_streams s))).
  assert (Hset : forall ph ph', set_nth k (set_phase ph (set_phase ph' st)) (set_nth k (set_phase ph' st) (n_streams s)) = set_nth k (set_phase ph st) (n_streams s)).
  { intros ph ph'. clear. revert k. induction (n_streams s) as [|x l IH]; intros [|k]; cbn; auto. rewrite IH. reflexivity. }
  assert (Hat_k : forall ph, nth_error (set_nth k (set_phase ph st) (n_streams s)) k = Some (set_phase ph st)) by (intro; rewrite set_nth_nth, Nat.eqb_refl, Hk; reflexivity).
  assert (H3 : nrun ident s (repeat (NStream k now) 3) = s3).
  { assert (Hone : forall q ph ph' call, pstream_step now q k (set_phase ph st) = (ph', call, []) ->
      fst (nstep ident (mk_n q (n_clients s) (set_nth k (set_phase ph st) (n_streams s))) (NStream k now))
      = mk_n (match call with Some o => mk_q (q_tbl q) (q_calls q ++ [mk_qcall o QStart]) | None => q end)
          (n_clients s) (set_nth k (set_phase ph' st) (n_streams s))).
    { intros q ph ph' call E. cbn [nstep n_streams n_db]. rewrite Hat_k, E. cbn [fst n_clients]. rewrite <- (Hset ph' ph). destruct call; reflexivity. }
    cbn [repeat nrun].
    assert (E0 : s = mk_n (n_db s) (n_clients s) (set_nth k (set_phase PCheck st) (n_streams s))).
    { replace (set_phase PCheck st) with st by (destruct st; cbn in Hp |- *; subst; reflexivity).
      assert (Hsame : set_nth k st (n_streams s) = n_streams s); [|rewrite Hsame; destruct s; reflexivity].
      clear -Hk. revert k Hk. induction (n_streams s) as [|x l IH]; intros [|k] Hk; cbn in *; try congruence. rewrite IH; auto. }
    rewrite E0 at 1. rewrite (Hone _ _ (PGot (Some ts)) None).
    2:{ unfold pstream_step. cbn [set_phase s_phase s_executor]. rewrite Hnext. reflexivity. }
    rewrite (Hone _ _ (PTry (Some ts) now dl) None).
    2:{ unfold pstream_step. cbn [set_phase s_phase s_executor]. fold dl. rewrite Hdl. reflexivity. }
    rewrite (Hone _ _ (PLoading (Some ts) now dl i) (Some (OpLoad (s_executor st)))); [reflexivity|reflexivity]. }
  (* the load *)
  assert (Hcall : nth_error (q_calls (n_db s3)) i = Some (mk_qcall (OpLoad (s_executor st)) QStart)).
  { cbn. rewrite nth_error_app2, Nat.sub_diag by (unfold i; lia). reflexivity. }
  assert (Edb3 : n_db s3 = qrun ident (opened t) (qs ++ [QCall (OpLoad (s_executor st))])) by (rewrite qrun_app, <- Eq; reflexivity).
  assert (Hun3 : undisturbed ident i (n_db s3)).
  { intros k0 c Hne Hc. cbn in Hc. assert (k0 < length (q_calls (n_db s) ++ [mk_qcall (OpLoad (s_executor st)) QStart]))%nat by (apply nth_error_Some; congruence).
    rewrite app_length in H. cbn in H. rewrite nth_error_app1 in Hc by (unfold i in Hne; lia). exact (Hun k0 c Hne Hc). }
  assert (Halone := C68_alone ident t (qs ++ [QCall (OpLoad (s_executor st))]) i (OpLoad (s_executor st)) now Ht). cbv zeta in Halone.
  rewrite <- Edb3 in Halone. destruct (Halone Hcall Hun3) as [n [_ [Hfin _]]]. clear Halone.
  assert (Hnd : NoDup (map j_id js)) by (rewrite <- (holds_jobs_ids _ _ Hjs); apply (iv_nodup _ Hinv)).
  assert (Hdue : due now (s_executor st) j) by (split; [exact He|]; split; [exact Hw|unfold time in *; lia]).
  pose proof (C53_hand_out ident (q_tbl (n_db s)) js now (s_executor st) Hjs Hnd Hnow Hex Hat) as Hho.
  change (q_tbl (n_db s3)) with (q_tbl (n_db s)) in Hfin.
  destruct (pg_step ident now (q_tbl (n_db s)) (OpLoad (s_executor st))) as [t' r]. destruct Hho as [_ [[_ [_ Hno]]|[j' [js' [D1 [D2 [-> [_ D4]]]]]]]]; [destruct (Hno j Hj Hdue)|].
  cbn [snd] in Hfin. exists n, j'.
  split; [destruct D4 as [pre [post [-> _]]]; apply in_or_app; right; left; reflexivity|]. split; [exact D1|]. split; [exact D2|].
  cbv zeta. rewrite !nrun_app, ntrace_app, H3, runs_db. cbn [nrun nstep n_streams].
  change (n_streams s3) with (set_nth k (set_phase (PLoading (Some ts) now dl i) st) (n_streams s)). rewrite Hat_k.
  assert (Hps : pstream_step now (qrun ident (n_db s3) (repeat (QRun i now 0) n)) k (set_phase (PLoading (Some ts) now dl i) st)
    = (PYield (Ok (after_hand_out now j')), None, [NvYield k i (after_hand_out now j')])).
  { unfold pstream_step. cbn [set_phase s_phase]. unfold PgConcSpec.finished in Hfin. rewrite Hfin. reflexivity. }
  cbn [n_db]. rewrite Hps. cbn [fst n_streams]. split.
  - rewrite Hset, Hat_k. reflexivity.
  - apply in_or_app. right. rewrite ntrace_app, runs_db. apply in_or_app. right. cbn [ntrace nstep n_streams n_db].
    change (n_streams s3) with (set_nth k (set_phase (PLoading (Some ts) now dl i) st) (n_streams s)). rewrite Hat_k, Hps. left. reflexivity.
Qed.
Print Assumptions C75_hands_out_when_due.

Example C75_hands_out_sample :
  let s := nrun fx_identifier (n_found tbl_init) (ls_asleep ++ [NDeliver 0; NRecv 0]) in
  exists st js j, nth_error (n_streams s) 0 = Some st /\ s_phase st = PCheck /\ holds_jobs (q_tbl (n_db s)) js
    /\ In j js /\ MemSpec.waiting j /\ j_executor j = s_executor st /\ j_scheduled_at j <= 6 * ms + 15 * 1000000
    /\ undisturbed fx_identifier (length (q_calls (n_db s))) (n_db s).
Proof.
  cbv zeta. set (s := nrun _ _ _).
  assert (E : q_tbl (n_db s) = mk_tbl [new_row (4 * ms) 1 None (req mail 0 (5 * ms))] 2) by (vm_compute; reflexivity).
  assert (Ec : q_calls (n_db s) = [mk_qcall (OpEnqueue (req mail 0 (5 * ms))) (QDone (RId (Ok 1)))]) by (vm_compute; reflexivity).
  exists (mk_pstream 0 mail [] PCheck). eexists. eexists. split; [vm_compute; reflexivity|]. split; [reflexivity|]. rewrite E, Ec.
  split; [apply read_rows_inv; vm_compute; reflexivity|]. split; [left; reflexivity|]. split; [left; reflexivity|]. split; [reflexivity|].
  split; [apply Z.leb_le; vm_compute; reflexivity|].
  intros [|[|k]] c Hne Hc; cbn [q_calls] in Hc; try rewrite Ec in Hc; cbn in Hc; try discriminate. injection Hc as <-. split; reflexivity.
Qed.

(** What becomes of a load: a job is given to the worker, an unreadable row as such an error, any other
    failure as a bad state; if there was nothing to hand out, the stream goes to sleep.  After each item
    it looks again. *)
Theorem C75_items : forall ident s k st seen read d i o r now,
  nth_error (n_streams s) k = Some st -> s_phase st = PLoading seen read d i ->
  nth_error (q_calls (n_db s)) i = Some (mk_qcall o (QDone r)) ->
  exists ph, nth_error (n_streams (fst (nstep ident s (NStream k now)))) k = Some (mk_pstream (s_client st) (s_executor st) (s_queue st) ph)
    /\ (forall j, r = RJob (Ok (Some j)) -> ph = PYield (Ok j) /\ snd (nstep ident s (NStream k now)) = [NvYield k i j])
    /\ (r = RJob (Ok None) -> ph = PSelect seen read d)
    /\ (r = RJob (Err EncodeDecode) -> ph = PYield (Err EncodeDecode))
    /\ (forall e, r = RJob (Err e) -> e <> EncodeDecode -> ph = PYield (Err BadState))
    /\ forall item later, ph = PYield item -> exists st', st' = mk_pstream (s_client st) (s_executor st) (s_queue st) PCheck
         /\ nth_error (n_streams (nrun ident s [NStream k now; NStream k later])) k = Some st'
         /\ snd (nstep ident (fst (nstep ident s (NStream k now))) (NStream k later)) = [].
Proof.
  intros ident s k st seen read d i o r now Hk Hp Hc.
  assert (Hat : forall x l, nth_error (n_streams s) k = Some x -> nth_error (set_nth k l (n_streams s)) k = Some l) by (intros x l Hx; rewrite set_nth_nth, Nat.eqb_refl, Hx; reflexivity).
  destruct (pstream_step now (n_db s) k st) as [[ph call] evs] eqn:E.
  exists ph. unfold pstream_step in E. rewrite Hp, Hc in E.
  assert (Hn : nstep ident s (NStream k now) = (mk_n (match call with Some o => fst (qstep ident (n_db s) (QCall o)) | None => n_db s end)
                  (n_clients s) (set_nth k (set_phase ph st) (n_streams s)), evs)).
  { cbn [nstep]. rewrite Hk. unfold pstream_step. rewrite Hp, Hc, E. reflexivity. }
  rewrite Hn. cbn [fst snd n_streams]. split; [exact (Hat st (set_phase ph st) Hk)|].
  split; [intros j ->; cbn in E; injection E as <- <- <-; auto|]. split; [intros ->; cbn in E; injection E as <- <- <-; auto|].
  split; [intros ->; cbn in E; injection E as <- <- <-; auto|].
  split; [intros e -> He; destruct e; cbn in E; try (injection E as <- <- <-; reflexivity); congruence|].
  intros item later ->. eexists. split; [reflexivity|]. cbn [nrun]. rewrite Hn. cbn [fst nstep n_streams]. rewrite (Hat st _ Hk).
  unfold pstream_step. cbn [set_phase s_phase fst n_streams snd]. split; [|reflexivity].
  rewrite set_nth_nth, Nat.eqb_refl, (Hat st _ Hk). reflexivity.
Qed.
Print Assumptions C75_items.

(** Processes and streams come into being and lose their announcements in these ways only, and what a
    stream does is not noticed by other streams or processes. *)
Theorem C75_frame : forall ident s,
  (let s' := fst (nstep ident s NOpen) in
   n_clients s' = n_clients s ++ [mk_client true []] /\ n_streams s' = n_streams s /\ n_db s' = n_db s)
  /\ (forall c ex, (c < length (n_clients s))%nat ->
        let s' := fst (nstep ident s (NSubscribe c ex)) in
        n_clients s' = n_clients s /\ n_streams s' = n_streams s ++ [mk_pstream c ex [] PCheck] /\ n_db s' = n_db s)
  /\ (forall c ex, (length (n_clients s) <= c)%nat -> fst (nstep ident s (NSubscribe c ex)) = s)
  /\ (forall c l, l = NLost c \/ l = NClosed c ->
        let s' := fst (nstep ident s l) in
        n_streams s' = n_streams s /\ n_db s' = n_db s
        /\ forall c', nth_error (n_clients s') c'
             = match nth_error (n_clients s) c' with
               | Some (mk_client alive inbox) =>
                   Some (if Nat.eq_dec c' c then match l with NLost _ => mk_client alive [] | _ => mk_client false inbox end
                         else mk_client alive inbox)
               | None => None
               end)
  /\ (forall k now l, l = NStream k now \/ l = NRecv k \/ l = NError k ->
        let s' := fst (nstep ident s l) in
        n_clients s' = n_clients s /\ q_tbl (n_db s') = q_tbl (n_db s) /\ (exists calls, q_calls (n_db s') = q_calls (n_db s) ++ calls)
        /\ forall k', k' <> k -> nth_error (n_streams s') k' = nth_error (n_streams s) k')
  /\ (forall k st, nth_error (n_streams s) k = Some st -> s_phase st = PCheck ->
        nth_error (n_streams (fst (nstep ident s (NError k)))) k
        = Some (mk_pstream (s_client st) (s_executor st) (s_queue st) (PYield (Err BadState)))).
Proof.
  intros ident s. split; [cbn; auto|]. split; [|split; [|split; [|split]]].
  - intros c ex Hc. cbn [nstep]. destruct (nth_error (n_clients s) c) eqn:E; [cbn; auto|apply nth_error_None in E; lia].
  - intros c ex Hc. cbn [nstep]. apply nth_error_None in Hc. rewrite Hc. reflexivity.
  - intros c l [->| ->]; cbn [nstep]; destruct (nth_error (n_clients s) c) as [[al ib]|] eqn:E; cbn [fst n_streams n_db n_clients cl_listening cl_inbox];
      (split; [reflexivity|]); (split; [reflexivity|]); intro c'; try rewrite set_nth_nth; destruct (Nat.eq_dec c' c) as [Heq|Hne];
      try (subst c'; try rewrite Nat.eqb_refl; rewrite E; reflexivity);
      try (destruct (Nat.eqb_spec c c'); [congruence|]); destruct (nth_error (n_clients s) c') as [[? ?]|]; reflexivity.
  - intros k now l Hl.
    assert (Hset : forall (x : pstream) k', k' <> k -> nth_error (set_nth k x (n_streams s)) k' = nth_error (n_streams s) k').
    { intros x k' Hne. rewrite set_nth_nth. destruct (Nat.eqb_spec k k'); [congruence|reflexivity]. }
    destruct Hl as [->|[->| ->]]; cbn [nstep]; destruct (nth_error (n_streams s) k) as [[c ex q ph]|];
      try (cbn; repeat split; auto; exists []; rewrite app_nil_r; reflexivity).
    + destruct (pstream_step now (n_db s) k (mk_pstream c ex q ph)) as [[ph' call] evs].
      destruct call as [o|]; cbn [fst n_clients n_db n_streams qstep q_tbl q_calls]; (split; [reflexivity|]); (split; [reflexivity|]);
        (split; [|apply Hset]); eexists; [reflexivity|rewrite app_nil_r; reflexivity].
    + destruct q as [|m q], ph; cbn [fst n_clients n_db n_streams]; (split; [reflexivity|]); (split; [reflexivity|]);
        (split; [exists []; rewrite app_nil_r; reflexivity|]); auto.
    + destruct ph; cbn [fst n_clients n_db n_streams]; (split; [reflexivity|]); (split; [reflexivity|]);
        (split; [exists []; rewrite app_nil_r; reflexivity|]); auto.
  - intros k [c ex q ph] Hk Hp. cbn in Hp. subst ph. cbn [nstep]. rewrite Hk. cbn [fst n_streams]. rewrite set_nth_nth, Nat.eqb_refl, Hk. reflexivity.
Qed.
Print Assumptions C75_frame.

Example C75_items_sample :
  let ls := ls_asleep ++ [NDeliver 0; NRecv 0] ++ steps 0 3 6 ++ db (run_i 1 6 3) in
  nth_error (n_streams (nrun fx_identifier (n_found tbl_init) ls)) 0 = Some (mk_pstream 0 mail [] (PLoading (Some (5 * ms)) (6 * ms) (15 * ms) 1))
  /\ (exists j, nth_error (q_calls (n_db (nrun fx_identifier (n_found tbl_init) ls))) 1 = Some (mk_qcall (OpLoad mail) (QDone (RJob (Ok (Some j)))))
        /\ j_id j = 1 /\ j_attempt j = 1).
Proof. split; [vm_compute; reflexivity|]. eexists. split; [vm_compute; reflexivity|]. vm_compute. auto. Qed.
