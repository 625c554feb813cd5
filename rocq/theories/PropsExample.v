(** The example program. *)
From Coq Require Import Lia Permutation.
From Verif Require Import Base Chrono Types Query QueryProofs Memory MemSpec Codec Builder Backoff BackoffProofs GlobalBackend Runner RunnerSpec Ticker Pruner
  App AppSpec FxHash PgRow PgQuery Pg PgSpec PgProofs PgQueryProofs PgOps PropsPg PropsBackoff ApiSpec ApiProofs ExampleMain.
Open Scope string_scope.
Open Scope Z_scope.
Notation seconds n := (n * 1000000000).

(** * C113 What the program starts *)

(** Whatever the schedules and the clock: every call succeeds, and then there are a worker for each
    of the five executors, two workers and two schedules for the cron executor, and the pruner; the
    backend is the global one and the program holds the guard. *)
Theorem C113_starts : forall Zone (utc : Zone) upcoming show p u times,
  length times = 11%nat ->
  exists s rs, app_run utc upcoming show process_init (combine times (main_starts Zone p u)) = Some (s, rs)
    /\ rs = repeat (ROk tt) 11
    /\ map (purpose (Schedule := string)) (pr_tasks s)
       = [ RunsJobs (basic_job p u); RunsJobs (timeout_job p u); RunsJobs (cancelled_job p u);
           RunsJobs (snooze_job p u); RunsJobs (flaky_job p u);
           FiresCron (cron_job p u) "* * * * * *" utc "tick"; RunsJobs (cron_job p u);
           FiresCron (cron_job p u) "* * * * * *" utc "tock"; RunsJobs (cron_job p u);
           Prunes "0/2 * * * * *" main_pruners ]
    /\ pr_cell s = Some 0%nat
    /\ map rx_cancelled (pr_rexecutors s) = [false].
Proof.
  intros Zone utc upcoming show p u times H.
  do 11 (destruct times as [|? times]; [discriminate|]). destruct times; [|discriminate].
  do 2 eexists. split; [cbn; reflexivity|]. repeat split.
Qed.
Print Assumptions C113_starts.

(** * C113 What the jobs become *)

(** What the program's jobs look like to a worker: counters of 16 bits, no metadata. *)
Definition job_with (v : json) (j : job) : Prop :=
  j_data j = v /\ j_metadata j = JNull /\ counters_u16 j.
(** The clock is at least three seconds away from the end of time. *)
Definition sane (t : time) : Prop := dt_min <= t /\ t + seconds 4 <= dt_max.

Lemma u16_ok z : 0 <= z <= 65535 -> try_into_u16 z = Some z.
Proof. intro H. unfold try_into_u16, in_u16. replace ((0 <=? z) && (z <=? 65535)) with true; [reflexivity|]. symmetry. apply andb_true_intro. split; apply Z.leb_le; lia. Qed.
Lemma read_job {D M} (c : codec D M) v d j : job_with v j -> dec_data c v = Some d ->
  exists t, typed_of_stored c j = ROk t /\ tj_id t = j_id j /\ tj_data t = d /\ tj_attempt t = j_attempt j
    /\ tj_max_attempts t = j_max_attempts j /\ tj_inserted_at t = j_inserted_at j /\ tj_scheduled_at t = j_scheduled_at j.
Proof.
  intros [H1 [H2 [H3 [H4 H5]]]] Hd. unfold typed_of_stored. rewrite H1, H2, Hd. cbn [dec_opt].
  rewrite !u16_ok by assumption. eexists. split; [reflexivity|]. cbn. auto 10.
Qed.
Lemma sane_add a d : sane a -> 0 <= d <= seconds 4 -> dt_add a d = Some (a + d).
Proof.
  intros [H1 H2] Hd. unfold dt_add, in_dt. replace ((dt_min <=? a + d) && (a + d <=? dt_max)) with true; [reflexivity|].
  symmetry. apply andb_true_intro. split; apply Z.leb_le; lia.
Qed.

(** The delays of the two executors that have their own: a second, give or take half a second; and
    a second per attempt, give or take half a second. *)
Lemma drawn p j u v : 0 <= v <= seconds 100000 -> jitter_ms j v = 500 ->
  exists d, apply_jitter p j v u = Some d /\ v - seconds 1 / 2 <= d <= v + seconds 1 / 2.
Proof.
  intros Hv Hj. unfold apply_jitter. rewrite Hj. unfold random_range.
  change (500 =? i64_min) with false. change (500 <? 0) with false.
  pose proof (Z.mod_pos_bound u (2 * 500 + 1) ltac:(lia)) as Hb. set (k := u mod (2 * 500 + 1)) in *. cbv iota.
  unfold delta_milliseconds, delta_add. change (seconds 1 / 2) with 500000000.
  assert (Hd : forall x, -1000000000 <= x <= 100001000000000 -> in_delta x = true).
  { intros x Hx. unfold in_delta. apply andb_true_intro. split; apply Z.leb_le; unfold delta_min, delta_max, i64_max, ns_per_ms; lia. }
  unfold ns_per_ms. rewrite Hd by lia. cbv zeta. rewrite Hd by lia. eexists. split; [reflexivity|lia].
Qed.
Lemma flaky_delay p a u : exists d, backoff p flaky_backoff a u = Some d /\ seconds 1 / 2 <= d <= seconds 3 / 2.
Proof.
  unfold backoff, flaky_backoff. cbn [bs_strategy bs_jitter bs_offset bs_min with_jitter bs_constant bs_new strategy_backoff].
  destruct (drawn p (Relative f64_half) u (1 * ns_per_s)) as [d [-> Hd]]; [unfold ns_per_s; lia|vm_compute; reflexivity|].
  eexists. split; [reflexivity|]. unfold ns_per_s in Hd. change (seconds 1 / 2) with 500000000 in *. change (seconds 3 / 2) with 1500000000. lia.
Qed.
Lemma timeout_delay p a u : 1 <= a <= 65535 ->
  exists d, backoff p timeout_backoff a u = Some d /\ seconds a - seconds 1 / 2 <= d <= seconds a + seconds 1 / 2.
Proof.
  intro Ha. unfold backoff, timeout_backoff. cbn [bs_strategy bs_jitter bs_offset bs_min with_jitter bs_linear bs_new].
  assert (Hs : strategy_backoff p (Linear (1 * ns_per_s) None) a = Some (seconds a)).
  { unfold strategy_backoff, delta_mul. cbv zeta. replace (1 * ns_per_s * a) with (seconds a) by (unfold ns_per_s; lia).
    replace (in_delta (seconds a)) with true; [reflexivity|]. symmetry. unfold in_delta. apply andb_true_intro.
    split; apply Z.leb_le; unfold delta_min, delta_max, i64_max, ns_per_ms; lia. }
  rewrite Hs. destruct (drawn p (Absolute (500 * ns_per_ms)) u (seconds a)) as [d [-> Hd]]; [lia|vm_compute; reflexivity|].
  eexists. split; [reflexivity|]. change (seconds 1 / 2) with 500000000 in *. lia.
Qed.

(** [FlakyJob], for every text of its data: the first execution fails with its panic, the second
    with its error, and either is retried after half a second to one and a half unless it is the
    last; any later one completes the job. *)
Theorem C113_flaky : forall show p u text a b j s,
  job_with (JStr s) j -> sane a -> sane b -> 1 <= j_attempt j ->
  exists at_, b + seconds 1 / 2 <= at_ <= b + seconds 3 / 2
  /\ run_attempt show flaky_codec (flaky_fns p u) (flaky_execute text) a b j
     = Some (let failed ty msg :=
               let e := mk_exec_error ty msg in
               if j_attempt j =? j_max_attempts j then OpDiscarded (j_id j) e else OpRetryable (j_id j) at_ e in
             match j_attempt j with
             | 1 => failed EPanic "Terrible things happened"
             | 2 => failed (EOther "network_error") "FlakyJobError"
             | _ => OpComplete (j_id j)
             end).
Proof.
  intros show p u text a b j s Hj Ha Hb Hp.
  destruct (read_job flaky_codec (JStr s) s j Hj eq_refl) as [t [Ht [H1 [H2 [H3 [H4 _]]]]]].
  destruct (flaky_delay p (tj_attempt t) u) as [d [Hd Hr]]. change (seconds 1 / 2) with 500000000 in *. change (seconds 3 / 2) with 1500000000 in *.
  exists (b + d). split; [lia|]. unfold run_attempt, begin_job. rewrite Ht. cbn [flaky_fns xf_timeout xf_backoff]. rewrite Hd.
  unfold flaky_execute, is_final_attempt. rewrite H1, H3, H4.
  destruct (j_attempt j) as [|n|n] eqn:E; [lia| |lia].
  destruct n as [n|n|]; [|destruct n|]; cbn [Z.eqb Pos.eqb report report_error]; try reflexivity;
    unfold report_error; cbn [x_final x_id x_delay]; rewrite !sane_add by (assumption || lia);
    match goal with |- context [if ?x then _ else _] => destruct x end; reflexivity.
Qed.
Print Assumptions C113_flaky.

(** [TimeoutJob] with [n] milliseconds of sleep: it completes if its sleep ends within ten
    milliseconds for each attempt so far, and else fails with that timeout, to be retried after a
    second per attempt, give or take half a second, unless it is the last. *)
Theorem C113_timeout : forall show p u late a b j n,
  job_with (JNum n) j -> 0 <= n < 18446744073709551616 -> sane a -> sane b -> 1 <= j_attempt j <= 3 ->
  exists at_, b + seconds (j_attempt j) - seconds 1 / 2 <= at_ <= b + seconds (j_attempt j) + seconds 1 / 2
  /\ ((n * 1000000 + late <= j_attempt j * 10000000
       /\ run_attempt show timeout_codec (timeout_fns p u) (timeout_execute late) a b j = Some (OpComplete (j_id j)))
      \/ (j_attempt j * 10000000 < n * 1000000 + late
       /\ run_attempt show timeout_codec (timeout_fns p u) (timeout_execute late) a b j
          = Some (let e := mk_exec_error ETimeout ("Job failed to complete within timeout: " ++ show (j_attempt j * 10000000)) in
                  if j_attempt j =? j_max_attempts j then OpDiscarded (j_id j) e else OpRetryable (j_id j) at_ e))).
Proof.
  intros show p u late a b j n Hj Hn Ha Hb Hp.
  assert (Hdec : dec_u64 (JNum n) = Some n).
  { cbn. replace ((0 <=? n) && (n <? 18446744073709551616)) with true; [reflexivity|]. symmetry. apply andb_true_intro. split; [apply Z.leb_le|apply Z.ltb_lt]; lia. }
  destruct (read_job timeout_codec (JNum n) n j Hj Hdec) as [t [Ht [H1 [H2 [H3 [H4 _]]]]]].
  destruct (timeout_delay p (j_attempt j) u ltac:(lia)) as [d [Hd Hr]]. change (seconds 1 / 2) with 500000000 in *.
  exists (b + d). split; [lia|]. unfold run_attempt, begin_job. rewrite Ht. cbn [timeout_fns xf_timeout xf_backoff]. rewrite H3, Hd.
  unfold timeout_execute, is_final_attempt, timeout_of. rewrite H1, H2, H3, H4. unfold ns_per_ms.
  replace (10 * j_attempt j * 1000000) with (j_attempt j * 10000000) by lia.
  destruct (Z.leb_spec (n * 1000000 + late) (j_attempt j * 10000000)) as [Hl|Hl]; [left|right]; (split; [exact Hl|]); [reflexivity|].
  unfold report. cbn [x_timeout]. unfold report_error. cbn [x_final x_id x_delay]. rewrite !sane_add by (assumption || lia).
  destruct (j_attempt j =? j_max_attempts j); reflexivity.
Qed.
Print Assumptions C113_timeout.

(** The other executors have no timeout and the default backoff. *)
Lemma spawned {D M} (c : codec D M) p u v d j : job_with v j -> dec_data c v = Some d ->
  exists t x, typed_of_stored c j = ROk t /\ begin_job c (default_fns D M p u) j = Spawned x /\ x_id x = j_id j
    /\ tj_inserted_at t = j_inserted_at j /\ tj_scheduled_at t = j_scheduled_at j.
Proof.
  intros Hj Hd. destruct (read_job c v d j Hj Hd) as [t [Ht [H1 [_ [H3 [_ [H5 H6]]]]]]].
  destruct Hj as [_ [_ [Hu _]]]. destruct (C36_default_policy p (tj_attempt t) u ltac:(lia)) as [dl [Hdl _]].
  exists t. unfold begin_job. rewrite Ht. cbn [default_fns xf_timeout xf_backoff]. rewrite Hdl. eexists. split; [reflexivity|].
  split; [reflexivity|]. cbn. auto.
Qed.

(** [CancelledJob] is cancelled for the reason it gives, at any attempt. *)
Theorem C113_cancelled : forall show p u a b j,
  job_with JNull j ->
  run_attempt show nothing_codec (default_fns _ _ p u) cancelled_execute a b j
  = Some (OpCancelled (j_id j) (mk_exec_error ECancelled "Didn't like the job")).
Proof.
  intros show p u a b j Hj. destruct (spawned nothing_codec p u JNull tt j Hj eq_refl) as [t [x [H1 [H2 [H3 _]]]]].
  unfold run_attempt. rewrite H1, H2. cbn. rewrite H3. reflexivity.
Qed.
Print Assumptions C113_cancelled.

(** [BasicJob], with or without metadata, and [CronJob] complete. *)
Theorem C113_basic : forall show p u a b j s m,
  j_data j = JStr s -> (j_metadata j = JNull \/ j_metadata j = JStr m) -> counters_u16 j ->
  run_attempt show basic_codec (default_fns _ _ p u) basic_execute a b j = Some (OpComplete (j_id j)).
Proof.
  intros show p u a b j s m Hd Hm [H3 [H4 H5]]. unfold run_attempt, begin_job.
  assert (Ht : exists t, typed_of_stored basic_codec j = ROk t /\ tj_id t = j_id j /\ tj_attempt t = j_attempt j).
  { unfold typed_of_stored. rewrite Hd. destruct Hm as [Hm|Hm]; rewrite Hm; cbn; rewrite !u16_ok by assumption; eexists; (split; [reflexivity|]); cbn; auto. }
  destruct Ht as [t [-> [H1 H2]]]. destruct (C36_default_policy p (tj_attempt t) u ltac:(lia)) as [dl [Hdl _]].
  cbn [default_fns xf_timeout xf_backoff]. rewrite Hdl. cbn. rewrite H1. reflexivity.
Qed.
Print Assumptions C113_basic.
Theorem C113_cron : forall show p u a b j s,
  job_with (JStr s) j ->
  run_attempt show cron_codec (default_fns _ _ p u) cron_execute a b j = Some (OpComplete (j_id j)).
Proof.
  intros show p u a b j s Hj. destruct (spawned cron_codec p u (JStr s) s j Hj eq_refl) as [t [x [H1 [H2 [H3 _]]]]].
  unfold run_attempt. rewrite H1, H2. cbn. rewrite H3. reflexivity.
Qed.
Print Assumptions C113_cron.

(** [SnoozeJob] is put off by a second while it is scheduled less than a second after its
    insertion, and else completes. *)
Theorem C113_snooze : forall show p u a b j,
  job_with JNull j -> sane a ->
  run_attempt show nothing_codec (default_fns _ _ p u) snooze_execute a b j
  = Some (if j_scheduled_at j <? j_inserted_at j + seconds 1 then OpSnoozed (j_id j) (a + seconds 1)
          else OpComplete (j_id j)).
Proof.
  intros show p u a b j Hj Ha. destruct (spawned nothing_codec p u JNull tt j Hj eq_refl) as [t [x [H1 [H2 [H3 [H4 H5]]]]]].
  unfold run_attempt. rewrite H1, H2. unfold snooze_execute. rewrite H4, H5.
  assert (E : (num_seconds (j_scheduled_at j - j_inserted_at j) <? 1) = (j_scheduled_at j <? j_inserted_at j + seconds 1)).
  { unfold num_seconds, ns_per_s. set (d := j_scheduled_at j - j_inserted_at j).
    replace (j_scheduled_at j <? j_inserted_at j + seconds 1) with (d <? 1000000000)
      by (unfold d; destruct (Z.ltb_spec (j_scheduled_at j - j_inserted_at j) 1000000000), (Z.ltb_spec (j_scheduled_at j) (j_inserted_at j + seconds 1)); lia).
    pose proof (Z.quot_rem' d 1000000000) as Hq.
    destruct (Z.le_gt_cases 0 d) as [Hd|Hd].
    - pose proof (Z.rem_bound_pos d 1000000000 Hd ltac:(lia)). destruct (Z.ltb_spec (Z.quot d 1000000000) 1), (Z.ltb_spec d 1000000000); lia.
    - pose proof (Z.rem_bound_pos_neg d 1000000000 ltac:(lia) ltac:(lia)). destruct (Z.ltb_spec (Z.quot d 1000000000) 1), (Z.ltb_spec d 1000000000); lia. }
  rewrite E. destruct (j_scheduled_at j <? j_inserted_at j + seconds 1); cbn [report].
  - rewrite sane_add by (assumption || (unfold ns_per_s; lia)). unfold ns_per_s. rewrite H3. reflexivity.
  - rewrite H3. reflexivity.
Qed.
Print Assumptions C113_snooze.

(** * C113 The lives of the jobs the program enqueues *)

(** The requests, spelled out. *)
Theorem C113_requests : forall made now, sane now ->
  let req name data metadata attempts at_ tags priority criteria :=
    Some {| eq_executor := name; eq_data := data; eq_metadata := metadata; eq_max_attempts := attempts;
            eq_scheduled_at := at_; eq_tags := tags; eq_priority := priority; eq_criteria := criteria |} in
  first_request made now = req "basic_job" (JStr "First job") (JStr "Delayed attempt") 3 (now + seconds 2) ["initial_job"] 0 None
  /\ second_request made = req "basic_job" (JStr "Second job") JNull 2 made ["second_job"; "running_again"] 2 None
  /\ flaky_request made now = req "flaky_job" (JStr "Flaky job") JNull 3 (now + seconds 1) ["flaky_job"] 0 None
  /\ discarded_request made = req "flaky_job" (JStr "Discarded job") JNull 1 made [] 0 None
  /\ timeout_request made = req "timeout_job" (JNum 15) JNull 3 made [] 0 None
  /\ cancelled_request made = req "cancel_job" JNull JNull 1 made [] 0 None
  /\ exists uq, snooze_request made = req "snooze_job" JNull JNull 1 made [] 0 (Some uq)
      /\ snooze_again_request made = req "snooze_job" JNull JNull 1 made [] 42 (Some uq)
      /\ uc_key uq = None /\ uc_executor uq = true /\ uc_duration uq = Some (seconds 60) /\ uc_statuses uq = [Scheduled]
      /\ exists r, uc_on_conflict uq = Replace r /\ rp_priority r = true
          /\ rp_scheduled_at r = false /\ rp_data r = false /\ rp_metadata r = false /\ rp_max_attempts r = false
          /\ forall s, In s (rp_for_statuses r).
Proof.
  intros made now Hs. cbv zeta.
  split; [|split; [reflexivity|split; [|split; [reflexivity|split; [reflexivity|split; [reflexivity|]]]]]].
  1,2: unfold first_request, flaky_request, built, apply_calls, apply_call, schedule_in;
    rewrite sane_add by (assumption || (unfold ns_per_s; lia)); reflexivity.
  eexists. split; [reflexivity|]. split; [reflexivity|]. do 4 (split; [reflexivity|]).
  eexists. split; [reflexivity|]. do 5 (split; [reflexivity|]). intros []; cbn; auto 10.
Qed.
Print Assumptions C113_requests.

(** A job is handed out, run and reported again and again: [runs] says what may be reported for a
    job handed to the runner.  The backends do to it what [report_effect] says (C13). *)
Inductive tries (runs : job -> mop -> Prop) : job -> list mop -> job -> Prop :=
| tries_end j : tries runs j [] j
| tries_more j taken o reported f ops j' :
    runs (after_hand_out taken j) o -> report_effect reported o = Some (j_id j, f) ->
    tries runs (f (after_hand_out taken j)) ops j' -> tries runs j (o :: ops) j'.

(** What may be reported for a flaky job, whatever the clock and the generator give. *)
Definition flaky_runs (show : Z -> string) (p : profile) (j : job) (o : mop) : Prop :=
  exists u text a b, sane a /\ sane b
    /\ run_attempt show flaky_codec (flaky_fns p u) (flaky_execute text) a b j = Some o.

Lemma flaky_first show p j o s : flaky_runs show p j o -> job_with (JStr s) j -> j_attempt j = 1 ->
  exists at_, o = if j_max_attempts j =? 1 then OpDiscarded (j_id j) (mk_exec_error EPanic "Terrible things happened")
                  else OpRetryable (j_id j) at_ (mk_exec_error EPanic "Terrible things happened").
Proof.
  intros [u [text [a [b [Ha [Hb H]]]]]] Hj E. destruct (C113_flaky show p u text a b j s Hj Ha Hb ltac:(lia)) as [at_ [_ Hr]].
  rewrite Hr, E in H. cbv zeta iota in H. exists at_. rewrite Z.eqb_sym. injection H as <-. reflexivity.
Qed.
Lemma flaky_second show p j o s : flaky_runs show p j o -> job_with (JStr s) j -> j_attempt j = 2 ->
  exists at_, o = if j_max_attempts j =? 2 then OpDiscarded (j_id j) (mk_exec_error (EOther "network_error") "FlakyJobError")
                  else OpRetryable (j_id j) at_ (mk_exec_error (EOther "network_error") "FlakyJobError").
Proof.
  intros [u [text [a [b [Ha [Hb H]]]]]] Hj E. destruct (C113_flaky show p u text a b j s Hj Ha Hb ltac:(lia)) as [at_ [_ Hr]].
  rewrite Hr, E in H. cbv zeta iota in H. exists at_. rewrite Z.eqb_sym. injection H as <-. reflexivity.
Qed.
Lemma flaky_later show p j o s : flaky_runs show p j o -> job_with (JStr s) j -> j_attempt j = 3 -> o = OpComplete (j_id j).
Proof.
  intros [u [text [a [b [Ha [Hb H]]]]]] Hj E. destruct (C113_flaky show p u text a b j s Hj Ha Hb ltac:(lia)) as [at_ [_ Hr]].
  rewrite Hr, E in H. cbv zeta iota in H. injection H as <-. reflexivity.
Qed.

(** The job with three attempts fails twice and then completes; both failures are on record. *)
Theorem C113_flaky_life : forall show p made now inserted id e ops j,
  sane now -> flaky_request made now = Some e -> tries (flaky_runs show p) (new_job inserted id e) ops j -> length ops = 3%nat ->
  exists at1 at2,
    ops = [ OpRetryable id at1 (mk_exec_error EPanic "Terrible things happened");
            OpRetryable id at2 (mk_exec_error (EOther "network_error") "FlakyJobError"); OpComplete id ]
    /\ j_status j = Complete /\ j_attempt j = 3
    /\ map (fun x => (je_attempt x, je_type x, je_details x)) (j_errors j)
       = [ (1, EPanic, "Terrible things happened"); (2, EOther "network_error", "FlakyJobError") ].
Proof.
  intros show p made now inserted id e ops j Hs He Ht Hl.
  destruct (C113_requests made now Hs) as [_ [_ [Hq _]]]. rewrite He in Hq. injection Hq as ->.
  assert (Hu : forall z, z = 0 \/ z = 1 \/ z = 2 \/ z = 3 -> 0 <= z <= 65535) by lia.
  inversion Ht as [|j0 t1 o1 r1 f1 ops1 j1 Hr1 Hf1 Ht1]; subst; [discriminate|]. clear Ht.
  apply (flaky_first show p _ _ "Flaky job") in Hr1; [|split; [reflexivity|split; [reflexivity|repeat split; cbn; lia]]|reflexivity].
  destruct Hr1 as [at1 ->]. cbn [j_max_attempts after_hand_out new_job eq_max_attempts Z.eqb Pos.eqb] in *.
  injection Hf1 as <-.
  inversion Ht1 as [|j0 t2 o2 r2 f2 ops2 j2 Hr2 Hf2 Ht2]; subst; [discriminate|]. clear Ht1.
  apply (flaky_second show p _ _ "Flaky job") in Hr2; [|split; [reflexivity|split; [reflexivity|repeat split; cbn; lia]]|reflexivity].
  destruct Hr2 as [at2 ->]. cbn [j_max_attempts after_hand_out after_retryable new_job eq_max_attempts Z.eqb Pos.eqb] in *.
  injection Hf2 as <-.
  inversion Ht2 as [|j0 t3 o3 r3 f3 ops3 j3 Hr3 Hf3 Ht3]; subst; [discriminate|]. clear Ht2.
  apply (flaky_later show p _ _ "Flaky job") in Hr3; [|split; [reflexivity|split; [reflexivity|repeat split; cbn; lia]]|reflexivity].
  subst o3. injection Hf3 as <-. inversion Ht3; subst; [|discriminate].
  exists at1, at2. repeat split.
Qed.
Print Assumptions C113_flaky_life.

(** The one without a number of attempts of its own is discarded at its first failure. *)
Theorem C113_discarded_life : forall show p made inserted id e o ops j,
  discarded_request made = Some e -> tries (flaky_runs show p) (new_job inserted id e) (o :: ops) j ->
  o = OpDiscarded id (mk_exec_error EPanic "Terrible things happened")
  /\ (ops = [] -> j_status j = Discarded /\ j_attempt j = 1 /\ map je_details (j_errors j) = ["Terrible things happened"]).
Proof.
  intros show p made inserted id e o ops j He Ht. injection He as <-.
  inversion Ht as [|j0 t1 o1 r1 f1 ops1 j1 Hr1 Hf1 Ht1]; subst. clear Ht.
  apply (flaky_first show p _ _ "Discarded job") in Hr1; [|split; [reflexivity|split; [reflexivity|repeat split; cbn; lia]]|reflexivity].
  destruct Hr1 as [at1 ->]. cbn [j_max_attempts after_hand_out new_job eq_max_attempts Z.eqb Pos.eqb ex_max_attempts flaky_consts] in *.
  split; [reflexivity|]. intros ->. injection Hf1 as <-. inversion Ht1; subst. repeat split.
Qed.
Print Assumptions C113_discarded_life.

(** What may be reported for a snooze job by a worker whose clock is not behind its insertion. *)
Definition snooze_runs (show : Z -> string) (p : profile) (j : job) (o : mop) : Prop :=
  exists u a b, sane a /\ j_inserted_at j <= a
    /\ run_attempt show nothing_codec (default_fns _ _ p u) snooze_execute a b j = Some o.

(** The snooze job is put off once, if it is inserted within a second of being built, and then
    completes, at its first attempt. *)
Theorem C113_snooze_life : forall show p made inserted id e o1 o2 j,
  snooze_request made = Some e -> made < inserted + seconds 1 ->
  tries (snooze_runs show p) (new_job inserted id e) [o1; o2] j ->
  exists at_, o1 = OpSnoozed id at_ /\ inserted + seconds 1 <= at_ /\ o2 = OpComplete id
    /\ j_status j = Complete /\ j_attempt j = 1 /\ j_errors j = [].
Proof.
  intros show p made inserted id e o1 o2 j He Hm Ht. injection He as <-.
  inversion Ht as [|j0 t1 ? r1 f1 ops1 j1 Hr1 Hf1 Ht1]; subst. clear Ht.
  destruct Hr1 as [u1 [a1 [b1 [Ha1 [Hi1 Hr1]]]]]. cbn [after_hand_out new_job j_inserted_at] in Hi1.
  rewrite C113_snooze in Hr1; [|split; [reflexivity|split; [reflexivity|repeat split; cbn; lia]]|exact Ha1].
  cbn [after_hand_out new_job j_inserted_at j_scheduled_at eq_scheduled_at j_id] in Hr1.
  change (b_scheduled_at _) with made in Hr1. destruct (Z.ltb_spec made (inserted + seconds 1)); [|lia].
  injection Hr1 as <-. injection Hf1 as <-.
  inversion Ht1 as [|j0 t2 ? r2 f2 ops2 j2 Hr2 Hf2 Ht2]; subst. clear Ht1.
  destruct Hr2 as [u2 [a2 [b2 [Ha2 [Hi2 Hr2]]]]].
  rewrite C113_snooze in Hr2; [|split; [reflexivity|split; [reflexivity|repeat split; cbn; lia]]|exact Ha2].
  cbn [after_hand_out after_snoozed new_job j_inserted_at j_scheduled_at eq_scheduled_at j_id] in Hr2.
  destruct (a1 + 1000000000 <? inserted + seconds 1) eqn:E2; [apply Z.ltb_lt in E2; lia|].
  injection Hr2 as <-. injection Hf2 as <-. inversion Ht2; subst. exists (a1 + seconds 1). repeat split. lia.
Qed.
Print Assumptions C113_snooze_life.

(** A worker whose clock is behind the database's may put the job off again and again. *)
Theorem C113_snooze_refuted : forall show p u, exists made inserted a1 a2 e j at1 at2,
  snooze_request made = Some e /\ made < inserted + seconds 1 /\ a1 < a2 /\ sane a1 /\ sane a2
  /\ j = after_hand_out 1 (new_job inserted 1 e)
  /\ run_attempt show nothing_codec (default_fns _ _ p u) snooze_execute a1 a1 j = Some (OpSnoozed 1 at1)
  /\ run_attempt show nothing_codec (default_fns _ _ p u) snooze_execute a2 a2 (after_hand_out at1 (after_snoozed at1 j)) = Some (OpSnoozed 1 at2).
Proof.
  intros show p u. exists 0, (seconds 10), 0, (seconds 2). do 4 eexists. split; [reflexivity|]. split; [lia|]. split; [lia|].
  assert (S0 : forall z, 0 <= z <= seconds 10 -> sane z) by (intros z Hz; split; unfold dt_min, dt_max, ns_per_s; lia).
  split; [apply S0; lia|]. split; [apply S0; lia|]. split; [reflexivity|].
  split; (rewrite C113_snooze; [reflexivity|split; [reflexivity|split; [reflexivity|repeat split; cbn; lia]]|apply S0; lia]).
Qed.
Print Assumptions C113_snooze_refuted.

(** What may be reported for the timeout job when neither timer is more than five milliseconds
    later than the other: its first attempt times out, its second completes. *)
Definition timeout_runs (show : Z -> string) (p : profile) (j : job) (o : mop) : Prop :=
  exists u late a b, sane a /\ sane b /\ -5000000 < late <= 5000000
    /\ run_attempt show timeout_codec (timeout_fns p u) (timeout_execute late) a b j = Some o.
Theorem C113_timeout_life : forall show p made inserted id e o1 o2 j,
  timeout_request made = Some e -> tries (timeout_runs show p) (new_job inserted id e) [o1; o2] j ->
  exists at_, o1 = OpRetryable id at_ (mk_exec_error ETimeout ("Job failed to complete within timeout: " ++ show 10000000))
    /\ o2 = OpComplete id /\ j_status j = Complete /\ j_attempt j = 2.
Proof.
  intros show p made inserted id e o1 o2 j He Ht. injection He as <-.
  inversion Ht as [|j0 t1 ? r1 f1 ops1 j1 Hr1 Hf1 Ht1]; subst. clear Ht.
  destruct Hr1 as [u1 [l1 [a1 [b1 [Ha1 [Hb1 [Hl1 Hr1]]]]]]].
  match type of Hr1 with run_attempt _ _ _ _ _ _ ?jj = _ =>
  edestruct (C113_timeout show p u1 l1 a1 b1 jj 15) as [at1 [_ [[Hx _]|[_ Hx]]]];
    [split; [reflexivity|split; [reflexivity|repeat split; cbn; lia]]|lia|exact Ha1|exact Hb1|cbn; lia| |] end.
  { cbn [j_attempt after_hand_out new_job] in Hx. lia. }
  rewrite Hx in Hr1. clear Hx.
  cbn [j_attempt j_max_attempts after_hand_out new_job eq_max_attempts j_id ex_max_attempts timeout_consts Z.add Z.eqb Pos.eqb] in Hr1.
  injection Hr1 as <-. injection Hf1 as <-.
  inversion Ht1 as [|j0 t2 ? r2 f2 ops2 j2 Hr2 Hf2 Ht2]; subst. clear Ht1.
  destruct Hr2 as [u2 [l2 [a2 [b2 [Ha2 [Hb2 [Hl2 Hr2]]]]]]].
  match type of Hr2 with run_attempt _ _ _ _ _ _ ?jj = _ =>
  edestruct (C113_timeout show p u2 l2 a2 b2 jj 15) as [at2 [_ [[_ Hx]|[Hx _]]]];
    [split; [reflexivity|split; [reflexivity|repeat split; cbn; lia]]|lia|exact Ha2|exact Hb2|cbn; lia| |] end.
  2:{ cbn [j_attempt after_hand_out after_retryable new_job] in Hx. lia. }
  rewrite Hx in Hr2. injection Hr2 as <-. injection Hf2 as <-. inversion Ht2; subst.
  exists at1. repeat split.
Qed.
Print Assumptions C113_timeout_life.

(** * C114 The second snooze job *)

(** The comment at main.rs 93: while the first job waits and is the only one like it, the second
    call returns its id and sets its priority, and nothing else changes. *)
Theorem C114_override_partial : forall ident t js now made e j,
  holds_jobs t js -> NoDup (map j_id js) -> kept_time now -> kept_time made -> kept_window e -> t_next t <= 2147483647 ->
  snooze_again_request made = Some e ->
  In j js -> (forall x, In x js -> j_executor x = "snooze_job" -> j_status x = Scheduled -> x = j) ->
  j_executor j = "snooze_job" -> j_status j = Scheduled -> made - seconds 60 <= j_scheduled_at j <= made + seconds 60 ->
  exists t' js' j', pg_step ident now t (OpEnqueue e) = (t', RId (Ok (j_id j)))
    /\ holds_jobs t' js' /\ changed_one (j_id j) j j' js js'
    /\ j_priority j' = 42 /\ j_status j' = Scheduled /\ j_scheduled_at j' = j_scheduled_at j /\ j_id j' = j_id j.
Proof.
  intros ident t js now made e j Ht Hn Hnow Hmade Hw Hb He Hj Hone Hex Hst Hd.
  injection He as <-.
  match type of Hw with kept_window ?e0 => pose proof (C10_conflict_replacement_postgres ident t js now e0 Ht Hn Hnow) as H end.
  specialize (fun K1 K2 => H K1 Hw K2 Hb).
  match type of H with ?A -> ?B -> _ =>
    assert (HA : A); [|assert (HB : B); [|specialize (H HA HB)]] end.
  { split; [apply clean_by_storable; reflexivity|]. split; [exact Logic.I|]. split; [exact Logic.I|]. split; [exact Hmade|constructor]. }
  { intros uq r Hq Hr. injection Hq as <-. injection Hr as <-. cbn. auto 10. }
  destruct (pg_step ident now t _) as [t' res].
  destruct H as [[r [x [js' [H1 [H2 [H3 [-> [H4 [H5 [H6 H7]]]]]]]]]]|[H1 _]].
  - destruct H3 as [uq [Hq [_ [Hx1 [Hx2 _]]]]]. injection Hq as <-. cbn in Hx1, Hx2.
    assert (x = j) as ->.
    { apply Hone; [|rewrite <- Hx1; reflexivity|destruct Hx2 as [<-|[]]; reflexivity].
      destruct H6 as [pre [post [-> _]]]. apply in_or_app. right. left. reflexivity. }
    eexists t', js', _. split; [reflexivity|]. split; [exact H5|]. split; [exact H6|].
    clear -Hst. destruct j. cbn in Hst. subst. repeat split.
  - exfalso. destruct (forall2_in_r _ _ _ _ Ht Hj) as [r [Hr Hrep]]. apply (H1 r j Hr Hrep).
    eexists. split; [reflexivity|]. split; [intros k Hk; discriminate|]. split; [intro; symmetry; exact Hex|].
    split; [rewrite Hst; left; reflexivity|]. intros d Hdd. injection Hdd as <-. exact Hd.
Qed.
Print Assumptions C114_override_partial.

(** Whatever the table holds: the second call sets the priority of one of the snooze jobs that wait
    within a minute of it, and returns its id; if there is none, it adds a job of priority 42 and
    leaves all others as they are. *)
Definition waits_near (made : time) (x : job) : Prop :=
  j_executor x = "snooze_job" /\ j_status x = Scheduled /\ made - seconds 60 <= j_scheduled_at x <= made + seconds 60.
Theorem C114_either : forall ident t js now made e,
  holds_jobs t js -> NoDup (map j_id js) -> kept_time now -> kept_time made -> kept_window e -> t_next t <= 2147483647 ->
  snooze_again_request made = Some e ->
  exists t' js' i, pg_step ident now t (OpEnqueue e) = (t', RId (Ok i)) /\ holds_jobs t' js' /\
    ((exists x x', In x js /\ waits_near made x /\ i = j_id x /\ changed_one i x x' js js'
        /\ j_priority x' = 42 /\ waits_near made x' /\ j_id x' = i)
     \/ ((forall x, In x js -> ~ waits_near made x) /\ i = t_next t
        /\ exists x, js' = (js ++ [x])%list /\ j_id x = i /\ j_priority x = 42 /\ waits_near made x)).
Proof.
  intros ident t js now made e Ht Hn Hnow Hmade Hw Hb He.
  injection He as <-.
  match type of Hw with kept_window ?e0 => pose proof (C10_conflict_replacement_postgres ident t js now e0 Ht Hn Hnow) as H end.
  specialize (fun K1 K2 => H K1 Hw K2 Hb).
  match type of H with ?A -> ?B -> _ =>
    assert (HA : A); [|assert (HB : B); [|specialize (H HA HB)]] end.
  { split; [apply clean_by_storable; reflexivity|]. split; [exact Logic.I|]. split; [exact Logic.I|]. split; [exact Hmade|constructor]. }
  { intros uq r Hq Hr. injection Hq as <-. injection Hr as <-. cbn. auto 10. }
  destruct (pg_step ident now t _) as [t' res].
  destruct H as [[r [x [js' [H1 [H2 [H3 [-> [H4 [H5 [H6 H7]]]]]]]]]]|[H1 [-> [r [-> [H2 _]]]]]].
  - exists t', js', (j_id x). split; [reflexivity|]. split; [exact H5|]. left.
    assert (Hx : In x js) by (destruct H6 as [pre [post [-> _]]]; apply in_or_app; right; left; reflexivity).
    destruct H3 as [uq [Hq [_ [Hx1 [Hx2 Hx3]]]]]. injection Hq as <-. cbn in Hx1, Hx2.
    assert (Hnear : waits_near made x).
    { split; [symmetry; apply Hx1; reflexivity|]. split; [destruct Hx2 as [<-|[]]; reflexivity|]. apply (Hx3 (60 * ns_per_s) eq_refl). }
    exists x. eexists. split; [exact Hx|]. split; [exact Hnear|]. split; [reflexivity|]. split; [exact H6|].
    clear -Hnear. destruct x. destruct Hnear as [N1 [N2 N3]]. cbn in N1, N2, N3. subst. repeat split; apply N3.
  - match type of H2 with represents _ ?nj => set (x0 := nj) in * end. eexists. exists (js ++ [x0])%list. eexists. split; [reflexivity|]. split; [apply Forall2_app; [exact Ht|constructor; [exact H2|constructor]]|].
    right. split.
    { intros x Hx [N1 [N2 N3]]. destruct (forall2_in_r _ _ _ _ Ht Hx) as [r' [Hr Hrep]]. apply (H1 r' x Hr Hrep).
      eexists. split; [reflexivity|]. split; [intros k Hk; discriminate|]. split; [intro; symmetry; exact N1|].
      split; [rewrite N2; left; reflexivity|]. intros d Hdd. injection Hdd as <-. exact N3. }
    split; [reflexivity|]. exists x0. split; [reflexivity|]. subst x0. unfold waits_near. cbn. split; [reflexivity|]. split; [reflexivity|]. split; [reflexivity|]. split; [reflexivity|lia].
Qed.
Print Assumptions C114_either.

(** But if a worker has the first job by then, the second call makes a second job and the first
    keeps its priority. *)
Theorem C114_override_refuted : exists made again e e' t,
  made < again /\ snooze_request made = Some e /\ snooze_again_request again = Some e'
  /\ t = pg_run fx_identifier tbl_init [(made, OpEnqueue e); (made, OpLoad "snooze_job"); (again, OpEnqueue e')]
  /\ map (fun r => (r_id r, r_status r, r_priority r)) (t_rows t) = [(1, "executing", 0); (2, "scheduled", 42)].
Proof.
  exists (seconds 1), (seconds 2). do 3 eexists. split; [lia|]. do 3 (split; [reflexivity|]). vm_compute. reflexivity.
Qed.
Print Assumptions C114_override_refuted.

(** * C113 What the pruner leaves *)

(** No rule of the program removes a job that is not finished, a job scheduled within the last day,
    or, of the cron jobs, one of the twenty newest complete ones; cron jobs are never removed by
    age. *)
Theorem C113_pruner : forall ident t js now ps,
  In ps (pc_pruners main_pruners) -> holds_jobs t js -> NoDup (map j_id js) -> kept_time now ->
  dt_min + seconds 200000 <= now <= dt_max -> -210866803200000000000 + seconds 200000 <= now ->
  exists t' js', pg_step ident now t (OpPrune ps) = (t', RUnit (Ok tt)) /\ holds_jobs t' js'
    /\ (forall j, In j js' -> In j js)
    /\ (forall j, In j js -> In j js' \/
         (j_executor j = "cron_job" /\ j_status j = Complete
          /\ exists kept, length kept = 20%nat /\ NoDup kept /\ forall k, In k kept -> In k js' /\ j_executor k = "cron_job" /\ j_status k = Complete /\ j_scheduled_at j <= j_scheduled_at k)
         \/ (j_executor j <> "cron_job" /\ j_status j = Complete /\ j_scheduled_at j < now - seconds 86400)
         \/ ((j_status j = Discarded \/ j_status j = Cancelled) /\ j_scheduled_at j < now - seconds 172800)).
Proof.
  intros ident t js now ps Hps Ht Hn Hk Hr1 Hr2.
  assert (E : pc_pruners main_pruners =
    [ mk_prune_spec Complete (MaxLength 20) (Only ["cron_job"]); mk_prune_spec Complete (MaxAge 86400000000000) (Except ["cron_job"]);
      mk_prune_spec Discarded (MaxAge 172800000000000) (Except []); mk_prune_spec Cancelled (MaxAge 172800000000000) (Except []) ])
    by (vm_compute; reflexivity).
  rewrite E in Hps. clear E.
  assert (Hcut : forall d, d = 86400000000000 \/ d = 172800000000000 -> kept_time (now - d) /\ dt_min <= now - d <= dt_max).
  { intros d Hd. destruct Hk as [[k Hk] _]. split; [split; [|lia]|lia].
    destruct Hd as [->| ->]; [exists (k - 86400000000)|exists (k - 172800000000)]; lia. }
  assert (Hcron : clean "cron_job") by (apply clean_by_storable; reflexivity).
  assert (Hkeep : forall P (l l' : list job), exactly_removed P l l' -> (forall j, In j l' -> In j l) /\ forall j, In j l -> In j l' \/ P j).
  { intros P l l' [Hr _]. clear -Hr. induction Hr as [|x l l' H [IH1 IH2]|x l l' Hx H [IH1 IH2]]; split; intros j Hj; auto.
    - destruct Hj as [->|Hj]; [left; reflexivity|right; auto].
    - destruct Hj as [->|Hj]; [left; left; reflexivity|]. destruct (IH2 j Hj); [left; right|right]; auto.
    - right. auto.
    - destruct Hj as [->|Hj]; [right; exact Hx|]. destruct (IH2 j Hj); auto. }
  destruct Hps as [<-|[<-|[<-|[<-|[]]]]].
  - pose proof (C59_prune_by_length ident t js now (mk_prune_spec Complete (MaxLength 20) (Only ["cron_job"])) 20 Ht Hn) as H.
    specialize (H ltac:(constructor; [exact Hcron|constructor]) ltac:(lia) eq_refl).
    destruct (pg_step ident now t _) as [t' r]. destruct H as [-> [_ [js' [gone [kept [rest [H1 [H2 [H3 [H4 [H5 [H6 [H7 [H8 H9]]]]]]]]]]]]]].
    exists t', js'. split; [reflexivity|]. split; [exact H1|].
    assert (Hsub : forall l g l', without l g l' -> (forall x : job, In x l <-> In x l' \/ In x g) /\ (NoDup l -> NoDup l')).
    { clear. induction 1 as [|x l g l' H [IH1 IH2]|x l g l' H [IH1 IH2]].
      - split; [intro x; cbn; tauto|auto].
      - split; [intro y; cbn; rewrite IH1; tauto|]. intro N. inversion N; subst. constructor; [|auto]. intro K. apply H2. apply IH1. auto.
      - split; [intro y; cbn; rewrite IH1; tauto|]. intro N. inversion N; subst. auto. }
    destruct (Hsub _ _ _ H2) as [S1 S2]. split; [intros j Hj; apply S1; auto|]. intros j Hj. apply S1 in Hj. destruct Hj as [Hj|Hj]; [auto|].
    right. left. destruct (H5 j Hj) as [K1 [K2|[]]]. split; [symmetry; exact K2|]. split; [exact K1|].
    exists kept. split; [|split].
    + assert (Hg : gone <> []) by (intros ->; destruct Hj). specialize (H8 Hg). lia.
    + apply NoDup_map_inv in Hn. specialize (S2 Hn). apply (Permutation_NoDup H3) in S2. clear -S2.
      induction kept as [|x k IH]; [constructor|]. cbn in S2. inversion S2; subst. constructor; [|auto]. intro K. apply H1, in_or_app. auto.
    + intros k Hkk. destruct (H4 k Hkk) as [L1 [L2|[]]]. split; [apply (Permutation_in _ (Permutation_sym H3)), in_or_app; auto|].
      split; [symmetry; exact L2|]. split; [exact L1|]. exact (H9 k j Hkk Hj).
  - pose proof (C59_prune_by_age ident t js now (mk_prune_spec Complete (MaxAge 86400000000000) (Except ["cron_job"])) 86400000000000 Ht Hn) as H.
    specialize (H ltac:(constructor; [exact Hcron|constructor]) (Hcut 86400000000000 (or_introl eq_refl)) eq_refl).
    destruct (pg_step ident now t _) as [t' r]. destruct H as [-> [_ [js' [H1 H2]]]]. apply Hkeep in H2. destruct H2 as [H2 H3].
    exists t', js'. split; [reflexivity|]. split; [exact H1|]. split; [exact H2|]. intros j Hj. destruct (H3 j Hj) as [?|[[K1 K2] K3]]; [left; assumption|].
    right. right. left. split; [intro K; apply K2; left; symmetry; exact K|]. split; [exact K1|exact K3].
  - pose proof (C59_prune_by_age ident t js now (mk_prune_spec Discarded (MaxAge 172800000000000) (Except [])) 172800000000000 Ht Hn) as H.
    specialize (H ltac:(constructor) (Hcut 172800000000000 (or_intror eq_refl)) eq_refl).
    destruct (pg_step ident now t _) as [t' r]. destruct H as [-> [_ [js' [H1 H2]]]]. apply Hkeep in H2. destruct H2 as [H2 H3].
    exists t', js'. split; [reflexivity|]. split; [exact H1|]. split; [exact H2|]. intros j Hj. destruct (H3 j Hj) as [?|[[K1 K2] K3]]; [left; assumption|].
    right. right. right. split; [left; exact K1|exact K3].
  - pose proof (C59_prune_by_age ident t js now (mk_prune_spec Cancelled (MaxAge 172800000000000) (Except [])) 172800000000000 Ht Hn) as H.
    specialize (H ltac:(constructor) (Hcut 172800000000000 (or_intror eq_refl)) eq_refl).
    destruct (pg_step ident now t _) as [t' r]. destruct H as [-> [_ [js' [H1 H2]]]]. apply Hkeep in H2. destruct H2 as [H2 H3].
    exists t', js'. split; [reflexivity|]. split; [exact H1|]. split; [exact H2|]. intros j Hj. destruct (H3 j Hj) as [?|[[K1 K2] K3]]; [left; assumption|].
    right. right. right. split; [right; exact K1|exact K3].
Qed.
Print Assumptions C113_pruner.

(** The data and the metadata of the program's jobs: the values of each type and the JSON they are
    stored as, and nothing else decodes. *)
Definition kept_as {A} (enc : A -> option json) (dec : json -> option A) (ok : A -> Prop) (js : A -> json) : Prop :=
  (forall x, enc x = Some (js x)) /\ (forall x, ok x -> dec (js x) = Some x)
  /\ forall v x, dec v = Some x -> v = js x /\ ok x.
Definition as_text {A} (enc : A -> option json) dec (tr : A -> string) : Prop := kept_as enc dec (fun _ => True) (fun x => JStr (tr x)).
Definition as_null {A} (enc : A -> option json) dec : Prop := kept_as enc dec (fun _ => True) (fun _ => JNull).
Theorem C113_codecs :
  as_text (enc_data basic_codec) (dec_data basic_codec) (fun s => s) /\ as_text (enc_meta basic_codec) (dec_meta basic_codec) (fun s => s)
  /\ as_text (enc_data flaky_codec) (dec_data flaky_codec) (fun s => s) /\ as_null (enc_meta flaky_codec) (dec_meta flaky_codec)
  /\ kept_as (enc_data timeout_codec) (dec_data timeout_codec) (fun n => 0 <= n < 2 ^ 64) JNum /\ as_null (enc_meta timeout_codec) (dec_meta timeout_codec)
  /\ as_null (enc_data nothing_codec) (dec_data nothing_codec) /\ as_null (enc_meta nothing_codec) (dec_meta nothing_codec)
  /\ as_text (enc_data cron_codec) (dec_data cron_codec) (fun s => s) /\ as_null (enc_meta cron_codec) (dec_meta cron_codec).
Proof.
  assert (T : as_text enc_text dec_text (fun s => s)).
  { split; [reflexivity|]. split; [reflexivity|]. intros v x H. destruct v; try discriminate. injection H as <-. auto. }
  assert (U : as_null enc_unit dec_unit).
  { split; [reflexivity|]. split; [intros []; reflexivity|]. intros v x H. destruct v; try discriminate. auto. }
  assert (N : kept_as enc_u64 dec_u64 (fun n => 0 <= n < 2 ^ 64) JNum).
  { change (2 ^ 64) with 18446744073709551616. split; [reflexivity|]. split.
    - intros x [H1 H2]. unfold dec_u64. apply Z.leb_le in H1. apply Z.ltb_lt in H2. rewrite H1, H2. reflexivity.
    - intros v x H. destruct v as [| |n| | |]; try discriminate. cbn in H. destruct (Z.leb_spec 0 n), (Z.ltb_spec n 18446744073709551616); try discriminate.
      injection H as <-. auto with zarith. }
  repeat (split; [assumption|]). assumption.
Qed.
Print Assumptions C113_codecs.

(** No executor of the program limits how many of its jobs run at once, and only [TimeoutJob] limits
    how long they do. *)
Definition executors (p : profile) (u : Z) : list executor :=
  [basic_job p u; timeout_job p u; cancelled_job p u; snooze_job p u; flaky_job p u; cron_job p u].
Lemma spawned_timeout {D M} (c : codec D M) fns j x : begin_job c fns j = Spawned x ->
  exists t, xf_timeout fns t = Some (x_timeout x) /\ tj_attempt t = j_attempt j.
Proof.
  unfold begin_job. destruct (typed_of_stored c j) as [t| |] eqn:Et; try discriminate.
  destruct (xf_timeout fns t) as [o|] eqn:Eo; [|discriminate]. destruct (xf_backoff fns t); [|discriminate].
  intro H. injection H as <-. exists t. split; [exact Eo|].
  unfold typed_of_stored, try_into_u16 in Et. destruct (in_u16 (j_attempt j)), (in_u16 (j_max_attempts j)), (in_u16 (j_priority j));
    repeat match type of Et with context [match ?m with _ => _ end] => destruct m eqn:?; try discriminate end; injection Et as <-; reflexivity.
Qed.
Theorem C113_unlimited : forall p u e, In e (executors p u) ->
  (forall running, below_limit (ex_max_concurrency (xe_consts e)) running = true)
  /\ forall j x, begin_job (xe_codec e) (xe_fns e) j = Spawned x ->
       x_timeout x = if (ex_name (xe_consts e) =? "timeout_job")%string then Some (j_attempt j * 10000000) else None.
Proof.
  intros p u e He. split; [destruct He as [<-|[<-|[<-|[<-|[<-|[<-|[]]]]]]]; reflexivity|]. intros j x H.
  destruct (spawned_timeout _ _ _ _ H) as [t [Ht Ha]]. clear H. revert t Ht Ha.
  destruct He as [<-|[<-|[<-|[<-|[<-|[<-|[]]]]]]]; cbn; intros t Ht Ha; injection Ht as <-; try reflexivity.
  f_equal. unfold timeout_of, ns_per_ms. rewrite Ha. lia.
Qed.
Print Assumptions C113_unlimited.

(** How often a job is tried that is enqueued without saying so, and that nothing but [SnoozeJob] is
    unique. *)
Definition plainly {D M} (c : codec D M) (ex : exec_consts) (name : string) (attempts : Z) : Prop :=
  forall made d e, built c ex made [Builder.CData d] = Some e ->
    eq_executor e = name /\ eq_max_attempts e = attempts /\ eq_scheduled_at e = made /\ eq_tags e = [] /\ eq_priority e = 0
    /\ (eq_criteria e <> None <-> name = "snooze_job").
Theorem C113_attempts :
  plainly basic_codec basic_consts "basic_job" 2 /\ plainly flaky_codec flaky_consts "flaky_job" 1
  /\ plainly timeout_codec timeout_consts "timeout_job" 3 /\ plainly nothing_codec cancelled_consts "cancel_job" 1
  /\ plainly nothing_codec snooze_consts "snooze_job" 1 /\ plainly cron_codec cron_consts "cron_job" 1.
Proof.
  unfold plainly. repeat match goal with |- _ /\ _ => split end; intros made d e H; cbn in H; injection H as <-; cbn; (split; [reflexivity|]); (split; [reflexivity|]);
    (split; [reflexivity|]); (split; [reflexivity|]); (split; [reflexivity|]); split; congruence.
Qed.
Print Assumptions C113_attempts.

(** * C113 Examples *)

Lemma sane_small z : 0 <= z <= seconds 1000000 -> sane z.
Proof. intro Hz. split; unfold dt_min, dt_max, ns_per_s; lia. Qed.

Example C113_flaky_example : exists e ops j,
  flaky_request 0 (seconds 5) = Some e /\ tries (flaky_runs (fun _ => "10ms") Debug) (new_job (seconds 5) 3 e) ops j
  /\ length ops = 3%nat /\ nth_error ops 0 = Some (OpRetryable 3 (seconds 8 - seconds 1 / 2) (mk_exec_error EPanic "Terrible things happened")).
Proof.
  do 3 eexists. split; [reflexivity|]. split.
  - eapply tries_more with (taken := seconds 6) (reported := seconds 7).
    { exists 0, "task 7 panicked", (seconds 6), (seconds 7). split; [apply sane_small; lia|]. split; [apply sane_small; lia|]. vm_compute. reflexivity. }
    { reflexivity. }
    eapply tries_more with (taken := seconds 8) (reported := seconds 9).
    { exists 700, "task 8 panicked", (seconds 8), (seconds 9). split; [apply sane_small; lia|]. split; [apply sane_small; lia|]. vm_compute. reflexivity. }
    { reflexivity. }
    eapply tries_more with (taken := seconds 10) (reported := seconds 11).
    { exists 1, "", (seconds 11), (seconds 11). split; [apply sane_small; lia|]. split; [apply sane_small; lia|]. vm_compute. reflexivity. }
    { reflexivity. }
    apply tries_end.
  - split; reflexivity.
Qed.

Example C113_discarded_example : exists e o j,
  discarded_request 0 = Some e /\ tries (flaky_runs (fun _ => "10ms") Release) (new_job 7 4 e) [o] j.
Proof.
  do 3 eexists. split; [reflexivity|]. eapply tries_more with (taken := seconds 6) (reported := seconds 7).
  { exists 0, "task 7 panicked", (seconds 6), (seconds 7). split; [apply sane_small; lia|]. split; [apply sane_small; lia|]. vm_compute. reflexivity. }
  { reflexivity. }
  apply tries_end.
Qed.

Example C113_snooze_example : exists e o1 o2 j,
  snooze_request 1000 = Some e /\ 1000 < 5000 + seconds 1 /\ tries (snooze_runs (fun _ => "10ms") Debug) (new_job 5000 7 e) [o1; o2] j.
Proof.
  do 4 eexists. split; [reflexivity|]. split; [lia|].
  eapply tries_more with (taken := 6000) (reported := 8000).
  { exists 0, 7000, 7000. split; [apply sane_small; lia|]. split; [cbn; lia|]. vm_compute. reflexivity. }
  { reflexivity. }
  eapply tries_more with (taken := seconds 2) (reported := seconds 3).
  { exists 0, (seconds 2), (seconds 2). split; [apply sane_small; lia|]. split; [cbn; lia|]. vm_compute. reflexivity. }
  { reflexivity. }
  apply tries_end.
Qed.

Example C113_timeout_example : exists e o1 o2 j,
  timeout_request 1000 = Some e /\ tries (timeout_runs (fun _ => "10ms") Debug) (new_job 5000 5 e) [o1; o2] j.
Proof.
  do 4 eexists. split; [reflexivity|].
  eapply tries_more with (taken := 6000) (reported := 8000).
  { exists 0, 1000, 7000, 7000. split; [apply sane_small; lia|]. split; [apply sane_small; lia|]. split; [lia|]. vm_compute. reflexivity. }
  { reflexivity. }
  eapply tries_more with (taken := seconds 2) (reported := seconds 3).
  { exists 9, 1000, (seconds 2), (seconds 2). split; [apply sane_small; lia|]. split; [apply sane_small; lia|]. split; [lia|]. vm_compute. reflexivity. }
  { reflexivity. }
  apply tries_end.
Qed.

(** Jobs of the other executors as their workers get them. *)
Example C113_plain_example :
  run_attempt (fun _ => "") nothing_codec (default_fns _ _ Debug 3) cancelled_execute 5 6
    (after_hand_out 4 (new_job 1 6 (mk_enqueuable "cancel_job" JNull JNull 1 0 [] 0 None)))
  = Some (OpCancelled 6 (mk_exec_error ECancelled "Didn't like the job"))
  /\ run_attempt (fun _ => "") basic_codec (default_fns _ _ Debug 3) basic_execute 5 6
    (after_hand_out 4 (new_job 1 1 (mk_enqueuable "basic_job" (JStr "First job") (JStr "Delayed attempt") 3 0 [] 0 None)))
  = Some (OpComplete 1)
  /\ run_attempt (fun _ => "") cron_codec (default_fns _ _ Release 3) cron_execute 5 6
    (after_hand_out 4 (new_job 1 9 (mk_enqueuable "cron_job" (JStr "tick") JNull 1 0 [] 0 None)))
  = Some (OpComplete 9).
Proof. vm_compute. auto. Qed.

Definition t_snooze : tbl := pg_run fx_identifier tbl_init
  [(seconds 1000000, OpEnqueue (mk_enqueuable "snooze_job" JNull JNull 1 (seconds 1000000) [] 0 (Some snooze_criteria)))].
Example C114_override_example : exists e js j,
  snooze_again_request (seconds 1000001) = Some e /\ holds_jobs t_snooze js /\ NoDup (map j_id js) /\ kept_window e /\ In j js
  /\ (forall x, In x js -> j_executor x = "snooze_job" -> j_status x = Scheduled -> x = j)
  /\ j_executor j = "snooze_job" /\ j_status j = Scheduled
  /\ map (fun r => (r_id r, r_priority r)) (t_rows (fst (pg_step fx_identifier (seconds 1000001) t_snooze (OpEnqueue e)))) = [(1, 42)].
Proof.
  do 3 eexists. split; [reflexivity|]. split; [apply read_rows_inv; vm_compute; reflexivity|].
  split; [repeat constructor; cbn; intuition discriminate|]. split.
  { intros uq d Hq Hd. injection Hq as <-. injection Hd as <-. cbn [eq_scheduled_at b_scheduled_at]. unfold ns_per_s.
    split; [split; [exists 999941000000|]; cbn; lia|]. split; [split; [exists 1000061000000|]; cbn; lia|]. unfold dt_min, dt_max, ns_per_s. cbn. lia. }
  split; [left; reflexivity|]. split; [intros x [<-|[]] _ _; reflexivity|].
  split; [reflexivity|]. split; [reflexivity|]. vm_compute. reflexivity.
Qed.

(** Twenty-one complete cron jobs: the oldest goes. *)
Definition h_cron : list (time * mop) :=
  map (fun k => (seconds k, OpEnqueue (mk_enqueuable "cron_job" (JStr "tick") JNull 1 (seconds k) [] 0 None))) (map (fun n => 300000 + Z.of_nat n) (seq 1 21))
  ++ map (fun k => (seconds 400000, OpComplete k)) (map Z.of_nat (seq 1 21)).
Example C113_pruner_example : exists js ps,
  holds_jobs (pg_run fx_identifier tbl_init h_cron) js /\ NoDup (map j_id js) /\ In ps (pc_pruners main_pruners)
  /\ map r_id (t_rows (fst (pg_step fx_identifier (seconds 400001) (pg_run fx_identifier tbl_init h_cron) (OpPrune ps)))) = map Z.of_nat (seq 2 20).
Proof.
  exists (match read_rows (t_rows (pg_run fx_identifier tbl_init h_cron)) with Ok l => l | _ => [] end). eexists.
  split; [apply read_rows_inv; vm_compute; reflexivity|].
  split; [vm_compute; repeat (constructor; [cbn; intuition discriminate|]); constructor|].
  split; [left; reflexivity|]. vm_compute. reflexivity.
Qed.

(** A timeout job at its second attempt, and a cron job. *)
Example C113_unlimited_example : exists e x c,
  timeout_request 1000 = Some e
  /\ begin_job (xe_codec (timeout_job Debug 7)) (xe_fns (timeout_job Debug 7)) (after_hand_out 2 (after_hand_out 1 (new_job 5000 5 e))) = Spawned x
  /\ x_timeout x = Some 20000000
  /\ built cron_codec cron_consts 1000 [Builder.CData "tick"] = Some c /\ eq_max_attempts c = 1.
Proof. do 3 eexists. split; [reflexivity|]. split; [vm_compute; reflexivity|]. split; [reflexivity|]. split; reflexivity. Qed.
