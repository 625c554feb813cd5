(** C85, C86: both backends pass the suite the project tests backends with. *)
From Verif Require Import Base Chrono Types Query Builder Memory PgRow PgQuery Pg Suite SuiteProofs SuiteMem SuitePg.

(** * C85, C86 The conformance suite *)

(** From 1970 to 9999. *)
Definition last_instant : time := 253402300799 * ns_per_s.
Definition seconds (n : Z) : delta := n * ns_per_s.
Definition micros (n : Z) : delta := n * 1000.

(** Every execution of every test on a fresh in-memory backend passes, in both build profiles, if no
    step takes more than five seconds and the clock does not go back. *)
Theorem C85_memory_passes : forall p name q c b,
  In (name, q) suite -> 0 <= c <= last_instant ->
  plays (memory p) (steady 0 (seconds 5) 0 last_instant) (rests 0 last_instant) mem_init c q b ->
  b = true.
Proof.
  intros p name q c b Hq Hc Hp. eapply plays_survives; [exact Hp|].
  exact (proj1 (Forall_forall _ _) (mem_suite p) (name, q) Hq c Hc).
Qed.
Print Assumptions C85_memory_passes.

(** The same for Postgres, if a step takes between a microsecond and thirty milliseconds. *)
Theorem C86_postgres_passes_partial : forall ident name q c b,
  In (name, q) suite -> 0 <= c <= last_instant ->
  plays (postgres ident) (steady (micros 1) (micros 30000) 0 last_instant) (rests 0 last_instant) tbl_init c q b ->
  b = true.
Proof.
  intros ident name q c b Hq Hc Hp. eapply plays_survives; [exact Hp|].
  exact (proj1 (Forall_forall _ _) (pg_suite ident) (name, q) Hq c Hc).
Qed.
Print Assumptions C86_postgres_passes_partial.

(** ** Given clock readings *)

Section Readings.
  Variable B : subject.
  Variables ticks sleeps : time -> time -> Prop.
  (** Readings the clock may give one after the other. *)
  Fixpoint chain (c : time) (ts : list time) : Prop :=
    match ts with [] => True | t :: ts => ticks c t /\ sleeps t t /\ chain t ts end.

  Lemma play_plays q : forall s c ts b, chain c ts -> play B s q ts = Some b -> plays B ticks sleeps s c q b.
  Proof.
    induction q as [k IH|o k IH|ex k IH|b0]; intros s c ts b Hc Hp; cbn [play] in Hp.
    - destruct ts as [|t ts]; [discriminate|]. destruct Hc as (Ht & _ & Hc). econstructor; eauto.
    - destruct ts as [|t ts]; [discriminate|]. destruct Hc as (Ht & _ & Hc).
      destruct (su_step B t s o) as [s' r] eqn:E. econstructor; eauto.
    - revert s c Hc Hp. induction ts as [|t ts IHts]; intros s c Hc Hp; [discriminate|]. cbn [poll] in Hp.
      destruct Hc as (Ht & Hs & Hc). destruct (su_step B t s (OpLoad ex)) as [s' r] eqn:E.
      destruct r as [r|r|r|r]; try discriminate.
      destruct r as [[j|]|e|].
      + eapply plays_next; eauto. discriminate.
      + eapply plays_sleep; eauto.
      + eapply plays_next; eauto. discriminate.
      + eapply plays_next; eauto. discriminate.
    - injection Hp as <-. constructor.
  Qed.
End Readings.

(** [n] readings [step] apart. *)
Fixpoint readings (c : time) (step : delta) (n : nat) : list time :=
  match n with O => [] | S n => (c + step) :: readings (c + step) step n end.
Lemma readings_chain least most lo hi step n : forall c, least <= step <= most -> 0 <= step -> lo <= c -> c + Z.of_nat n * step <= hi ->
  chain (steady least most lo hi) (rests lo hi) c (readings c step n).
Proof.
  induction n as [|n IH]; intros c Hs Hp Hc Hh; [exact I|]. cbn [readings chain].
  unfold steady, rests. split; [nia|]. split; [nia|]. apply IH; nia.
Qed.

(** A quarter past ten in the evening of 14 November 2023. *)
Definition one_evening : time := 1700000000 * ns_per_s.
Definition no_hash : option Z -> option string -> list status -> Z := fun _ _ _ => 0.

(** At fifty milliseconds a step Postgres fails the test of the order of hand-out: by the time of
    the second hand-out the job due in half a second is ready, and goes first. *)
Theorem C86_slow_refuted : exists q c,
  In ("subscribe_ready_jobs_streams_jobs_by_priority"%string, q) suite /\ 0 <= c <= last_instant
  /\ plays (postgres no_hash) (steady (micros 1) (micros 50000) 0 last_instant) (rests 0 last_instant) tbl_init c q false.
Proof.
  exists test_by_priority, one_evening. split; [cbn; auto|]. split; [vm_compute; split; discriminate|].
  apply (play_plays _ _ _ _ _ _ (readings one_evening (micros 50000) 20)).
  - apply readings_chain; vm_compute; try split; discriminate.
  - vm_compute. reflexivity.
Qed.
Print Assumptions C86_slow_refuted.

(** If the clock stands still Postgres fails the test of pruning: the job exactly fifty hours old
    stays, where the in-memory backend deletes it. *)
Theorem C86_frozen_refuted : exists q c,
  In ("prune_jobs"%string, q) suite /\ 0 <= c <= last_instant
  /\ plays (postgres no_hash) (steady 0 (micros 30000) 0 last_instant) (rests 0 last_instant) tbl_init c q false
  /\ forall p, plays (memory p) (steady 0 (micros 30000) 0 last_instant) (rests 0 last_instant) mem_init c q true.
Proof.
  exists test_prune, one_evening. split; [cbn; tauto|]. split; [vm_compute; split; discriminate|]. split.
  - apply (play_plays _ _ _ _ _ _ (readings one_evening 0 610)).
    + apply readings_chain; vm_compute; try split; discriminate.
    + vm_compute. reflexivity.
  - intros p. apply (play_plays _ _ _ _ _ _ (readings one_evening 0 610)).
    + apply readings_chain; vm_compute; try split; discriminate.
    + destruct p; vm_compute; reflexivity.
Qed.
Print Assumptions C86_frozen_refuted.

(** Every test can be played to its end, by both backends. *)
Definition fast (q : prog) : Prop :=
  (forall p, plays (memory p) (steady 0 (seconds 5) 0 last_instant) (rests 0 last_instant) mem_init one_evening q true)
  /\ plays (postgres no_hash) (steady (micros 1) (micros 30000) 0 last_instant) (rests 0 last_instant) tbl_init one_evening q true.
Example C85_C86_example : Forall (fun t => fast (snd t)) suite /\ length suite = 26%nat.
Proof.
  split; [|reflexivity].
  assert (H : forallb (fun t => match play (memory Debug) mem_init (snd t) (readings one_evening (micros 2000) 900),
                                      play (memory Release) mem_init (snd t) (readings one_evening (micros 2000) 900),
                                      play (postgres no_hash) tbl_init (snd t) (readings one_evening (micros 2000) 900) with
                                | Some true, Some true, Some true => true | _, _, _ => false end) suite = true)
    by (vm_compute; reflexivity).
  apply Forall_forall. intros t Ht. apply (proj1 (forallb_forall _ _)) with (x := t) in H; [|exact Ht].
  destruct (play (memory Debug) _ _ _) as [[|]|] eqn:E1; try discriminate.
  destruct (play (memory Release) _ _ _) as [[|]|] eqn:E2; try discriminate.
  destruct (play (postgres _) _ _ _) as [[|]|] eqn:E3; try discriminate.
  split; [intros [|]|].
  - eapply play_plays; [|exact E1]. apply readings_chain; vm_compute; try split; discriminate.
  - eapply play_plays; [|exact E2]. apply readings_chain; vm_compute; try split; discriminate.
  - eapply play_plays; [|exact E3]. apply readings_chain; vm_compute; try split; discriminate.
Qed.

(** ** The suite finds faults *)

(** Backends with one fault: selected operations are forgotten, altered, or answered wrongly. *)
Definition forgets (sel : mop -> bool) : subject :=
  mk_subject mem mem_init (fun t m o => let (m', r) := mem_step Debug t m o in (if sel o then m else m', r)).
Definition mishears (f : mop -> mop) : subject := mk_subject mem mem_init (fun t m o => mem_step Debug t m (f o)).
Definition flatters : subject :=
  mk_subject mem mem_init (fun t m o => let (m', r) := mem_step Debug t m o in
    (m', match r with RUnit (Err _) => RUnit (Ok tt) | r => r end)).

Definition change_request (f : enqueuable -> enqueuable) (o : mop) : mop :=
  match o with OpEnqueue e => OpEnqueue (f e) | o => o end.
Definition set_criteria (f : criteria -> option criteria) (e : enqueuable) : enqueuable :=
  mk_enqueuable (eq_executor e) (eq_data e) (eq_metadata e) (eq_max_attempts e) (eq_scheduled_at e) (eq_tags e)
    (eq_priority e) (match eq_criteria e with Some u => f u | None => None end).
Definition any_executor (o : mop) : mop := match o with OpLoad _ => OpLoad "another_executor" | o => o end.

Definition faults : list (string * subject) :=
  [("subscribe_ready_jobs", mishears any_executor);
   ("subscribe_ready_jobs_enqueuing_wakes_subscriber", mishears any_executor);
   ("subscribe_ready_jobs_streams_jobs_by_priority", mishears (change_request (with_priority_of 0)));
   ("subscribe_ready_jobs_streams_only_one_steam_receives_job", forgets (fun o => match o with OpLoad _ => true | _ => false end));
   ("enqueue", forgets (fun o => match o with OpEnqueue _ => true | _ => false end));
   ("enqueue_unique", mishears (change_request (set_criteria (fun _ => None))));
   ("enqueue_unique_no_matching", mishears (change_request (set_criteria (fun u => Some (and_statuses [Scheduled] u)))));
   ("enqueue_unique_replace", mishears (change_request (set_criteria (fun u => Some (on_conflict_do_nothing u)))));
   ("update_job", forgets (fun o => match o with OpUpdate _ => true | _ => false end));
   ("update_job_not_found", flatters);
   ("mark_job_complete", forgets (fun o => match o with OpComplete _ => true | _ => false end));
   ("mark_job_complete_not_found", flatters);
   ("rerun_job_first_attempt", forgets (fun o => match o with OpRerun _ => true | _ => false end));
   ("rerun_job_first_subsequent_attempt", forgets (fun o => match o with OpRerun _ => true | _ => false end));
   ("rerun_job_not_found", flatters);
   ("mark_job_snoozed_first_attempt", forgets (fun o => match o with OpSnoozed _ _ => true | _ => false end));
   ("mark_job_snoozed_other_attempt", forgets (fun o => match o with OpSnoozed _ _ => true | _ => false end));
   ("mark_job_snoozed_not_found", flatters);
   ("mark_job_discarded", forgets (fun o => match o with OpDiscarded _ _ => true | _ => false end));
   ("mark_job_discarded_not_found", flatters);
   ("mark_job_retryable", forgets (fun o => match o with OpRetryable _ _ _ => true | _ => false end));
   ("mark_job_retryable_not_found", flatters);
   ("mark_job_cancelled", forgets (fun o => match o with OpCancelled _ _ => true | _ => false end));
   ("mark_job_cancelled_not_found", flatters);
   ("query", mishears (fun o => match o with OpQuery (QExecutorEqual _) => OpQuery (QIdEquals 0) | o => o end));
   ("prune_jobs", forgets (fun o => match o with OpPrune _ => true | _ => false end))]%string.

Example C85_faults_found :
  map fst faults = map fst suite
  /\ forallb (fun x => match play (snd (fst x)) (su_init (snd (fst x))) (snd (snd x)) (readings one_evening (micros 2000) 900) with
                       | Some false => true | _ => false end) (combine faults suite) = true.
Proof. split; vm_compute; reflexivity. Qed.

(** What the tests ask of a backend, at the readings 1, 2, 3, ... milliseconds. *)
Section Script.
  Variable B : subject.
  Fixpoint script (s : su_state B) (q : prog) (ts : list time) {struct q} : list mop :=
    match q with
    | Fin _ => []
    | Now k => match ts with [] => [] | t :: ts => script s (k t) ts end
    | Call o k =>
        match ts with [] => [] | t :: ts => o :: (let (s', r) := su_step B t s o in script s' (k r) ts) end
    | Next ex k =>
        OpLoad ex :: match poll B ex s ts with None => [] | Some (s', r, ts) => script s' (k r) ts end
    end.
End Script.
Definition asked (q : prog) : list mop := script (memory Debug) mem_init q (readings 0 ns_per_ms 900).

(** A job of the suite. *)
Definition job_at (ex : string) (prio : Z) (t : time) (u : option criteria) : mop :=
  OpEnqueue (mk_enqueuable ex (JStr "data") (JStr "metadata") 5 t [] prio u).
Definition custom : exec_error := mk_exec_error (EOther "custom") "Error Message".
Definition at_ms (n : Z) : time := n * 1000000.
Definition a_day : delta := 86400000000000.
Example C85_script :
  asked test_subscribe =
    [OpSubscribe "executor"; job_at "another_executor" 0 (at_ms 2) None; job_at "executor" 0 (at_ms 4) None; OpLoad "executor"]
  /\ asked test_wakes = asked test_subscribe
  /\ asked test_by_priority =
    [OpSubscribe "executor"; job_at "executor" 0 (at_ms 502) None; job_at "executor" 2 (at_ms 1) None;
     job_at "executor" 0 (at_ms 1) None; OpLoad "executor"; OpLoad "executor"; OpLoad "executor"]
  /\ asked test_one_stream =
    [OpSubscribe "executor"; OpSubscribe "executor"; job_at "executor" 0 (at_ms 3) None; job_at "executor" 0 (at_ms 5) None;
     OpLoad "executor"; OpLoad "executor"]
  /\ asked test_enqueue =
    [job_at "executor" 0 (at_ms 1) None; job_at "executor" 0 (at_ms 3) None; OpQuery (QIdEquals 0); OpQuery (QIdEquals 1)]
  /\ asked test_unique =
    [job_at "executor" 0 (at_ms 1) None;
     job_at "executor" 0 (at_ms 3) (Some (mk_criteria None true (Some 120000000000) [Scheduled] DoNothing)); OpQuery (QIdEquals 0)]
  /\ asked test_unique_no_matching =
    [job_at "executor" 0 (at_ms 1) None;
     job_at "executor" 0 (at_ms 3) (Some (mk_criteria None false (Some 120000000000) [Retryable] DoNothing));
     OpQuery (QIdEquals 0); OpQuery (QIdEquals 1)]
  /\ asked test_unique_replace =
    [job_at "executor" 2 (at_ms 1) None;
     job_at "executor" 0 (at_ms 3) (Some (mk_criteria None true (Some 120000000000) [Scheduled]
                                           (Replace (mk_replace true true true true true [Scheduled]))));
     OpQuery (QIdEquals 0)]
  /\ asked test_update_not_found =
    [OpUpdate {| j_id := 0; j_status := Scheduled; j_executor := "executor"; j_data := JNull; j_metadata := JNull;
                 j_attempt := 0; j_max_attempts := 3; j_priority := 0; j_tags := []; j_errors := [];
                 j_inserted_at := at_ms 1; j_scheduled_at := at_ms 1 + 7200000000000; j_attempted_at := None;
                 j_completed_at := None; j_cancelled_at := None; j_discarded_at := None |}]
  /\ asked test_complete = [job_at "executor" 0 (at_ms 1) None; OpComplete 0; OpQuery (QIdEquals 0)]
  /\ asked test_rerun_first =
    [job_at "executor" 0 (at_ms 1) None; OpSubscribe "executor"; OpLoad "executor"; OpRetryable 0 (at_ms 5) custom;
     OpRerun 0; OpQuery (QIdEquals 0)]
  /\ asked test_rerun_subsequent =
    [job_at "executor" 0 (at_ms 1) None; OpSubscribe "executor"; OpLoad "executor"; OpRetryable 0 (at_ms 5) custom;
     OpLoad "executor"; OpRetryable 0 (at_ms 8) custom; OpRerun 0; OpQuery (QIdEquals 0)]
  /\ asked test_snoozed_first =
    [job_at "executor" 0 (at_ms 2) None; OpSubscribe "executor"; OpLoad "executor"; OpRetryable 0 (at_ms 6) custom;
     OpSnoozed 0 (at_ms 1 + a_day); OpQuery (QIdEquals 0)]
  /\ asked test_snoozed_other =
    [job_at "executor" 0 (at_ms 2) None; OpSubscribe "executor"; OpLoad "executor"; OpRetryable 0 (at_ms 6) custom;
     OpLoad "executor"; OpRetryable 0 (at_ms 9) custom; OpSnoozed 0 (at_ms 1 + a_day); OpQuery (QIdEquals 0)]
  /\ asked test_discarded = [job_at "executor" 0 (at_ms 1) None; OpDiscarded 0 custom; OpQuery (QIdEquals 0)]
  /\ asked test_retryable =
    [job_at "executor" 0 (at_ms 2) None; OpRetryable 0 (at_ms 1 + a_day) custom; OpQuery (QIdEquals 0)]
  /\ asked test_cancelled = [job_at "executor" 0 (at_ms 1) None; OpCancelled 0 custom; OpQuery (QIdEquals 0)]
  /\ map asked [test_complete_not_found; test_rerun_not_found; test_snoozed_not_found; test_discarded_not_found;
                test_retryable_not_found; test_cancelled_not_found]
     = [[OpComplete 42]; [OpRerun 42]; [OpSnoozed 42 (at_ms 1 + a_day)]; [OpDiscarded 42 custom];
        [OpRetryable 42 (at_ms 1 + a_day) custom]; [OpCancelled 42 custom]]
  /\ asked test_query =
    [job_at "executor" 0 (at_ms 1) None; job_at "other_executor" 0 (at_ms 3) None; job_at "executor" 0 (at_ms 5) None;
     OpQuery (QIdEquals 42); OpQuery (QIdEquals 0); OpQuery (QExecutorEqual "executor")]
  /\ asked test_prune =
    flat_map (fun i => [job_at "executor" 0 (at_ms 1 - Z.of_nat i * 3600000000000) None; OpComplete (Z.of_nat i)]) (seq 0 100)
    ++ flat_map (fun i => [job_at "other_executor" 0 (at_ms (302 + 3 * Z.of_nat i)) None; OpComplete (100 + Z.of_nat i)]) (seq 0 100)
    ++ [OpPrune (mk_prune_spec Cancelled (MaxLength 10) (Except [])); OpQuery (QNot (QExecutorEqual ""));
        OpPrune (mk_prune_spec Complete (MaxLength 50) (Only ["other_executor"%string])); OpQuery (QNot (QExecutorEqual ""));
        OpPrune (mk_prune_spec Complete (MaxAge 180000000000000) (Only ["executor"%string])); OpQuery (QNot (QExecutorEqual ""))].
Proof. vm_compute. repeat split. Qed.

(** ** Every assertion counts *)

(** A backend that gives prepared answers, whatever it is asked. *)
Definition told : subject :=
  mk_subject (list mres) [] (fun _ l _ => match l with [] => ([], RUnit Panic) | r :: l => (l, r) end).
Definition verdict (q : prog) (answers : list mres) : option bool := play told answers q (readings 0 ns_per_ms 900).
(** The test passes with the first answers and fails with each of the others. *)
Definition passes (q : prog) (l : list mres) : bool := match verdict q l with Some true => true | _ => false end.
Definition fails (q : prog) (l : list mres) : bool := match verdict q l with Some false => true | _ => false end.
Definition tells (q : prog) (good : list mres) (bad : list (list mres)) : bool := passes q good && forallb (fails q) bad.

Definition fine : mres := RUnit (Ok tt).
Definition id_ (n : Z) : mres := RId (Ok n).
Definition gone : mres := RUnit (Err (JobNotFound 42)).
Definition bad_id : mres := RId (Err BadState).
(** A job as the tests look at it. *)
Definition seen (id : Z) (ex : string) (st : status) (prio attempt max : Z) (at_ : time) (errors : list job_error)
  (completed cancelled discarded : option time) : job :=
  {| j_id := id; j_status := st; j_executor := ex; j_data := JStr "data"; j_metadata := JStr "metadata";
     j_attempt := attempt; j_max_attempts := max; j_priority := prio; j_tags := []; j_errors := errors;
     j_inserted_at := 0; j_scheduled_at := at_; j_attempted_at := None; j_completed_at := completed;
     j_cancelled_at := cancelled; j_discarded_at := discarded |}.
Definition plain (id : Z) (ex : string) : job := seen id ex Scheduled 0 0 5 0 [] None None None.
Definition prio_ (id p : Z) : job := seen id "executor" Scheduled p 0 5 0 [] None None None.
Definition stat_ (st : status) : job := seen 7 "executor" st 0 0 5 0 [] None None None.
Definition next_is (j : job) : mres := RJob (Ok (Some j)).
Definition found (l : list job) : mres := RJobs (Ok l).
Definition many (n : nat) : mres := found (repeat (plain 1 "executor") n).
Definition err_ (n : Z) (ty : error_type) (text : string) : job_error := mk_job_error n ty text 0.
Definition failed_ (st : status) (attempt : Z) (errors : list job_error) : mres :=
  found [seen 7 "executor" st 0 attempt 5 0 errors None None None].
(** The answers a test of a failure report can and cannot live with. *)
Definition report_seen (st other : status) : list mres * list (list mres) :=
  ([id_ 7; fine; failed_ st 3 [err_ 3 (EOther "custom") "Error Message"]],
   [[bad_id; fine; failed_ st 3 [err_ 3 (EOther "custom") "Error Message"]];
    [id_ 7; gone; failed_ st 3 [err_ 3 (EOther "custom") "Error Message"]];
    [id_ 7; fine; found []]; [id_ 7; fine; RJobs (Err BadState)];
    [id_ 7; fine; failed_ other 3 [err_ 3 (EOther "custom") "Error Message"]];
    [id_ 7; fine; failed_ st 3 []];
    [id_ 7; fine; failed_ st 3 [err_ 3 (EOther "custom") "Error Message"; err_ 3 (EOther "custom") "Error Message"]];
    [id_ 7; fine; failed_ st 3 [err_ 2 (EOther "custom") "Error Message"]];
    [id_ 7; fine; failed_ st 3 [err_ 3 (EOther "other") "Error Message"]];
    [id_ 7; fine; failed_ st 3 [err_ 3 EPanic "Error Message"]];
    [id_ 7; fine; failed_ st 3 [err_ 3 (EOther "custom") "Error message"]];
    [id_ 7; fine; found [plain 7 "executor"; plain 7 "executor"]]]).
(** The same for one rerun, and for one snooze until a day after the first millisecond. *)
Definition rerun_seen (st other : status) (before : list mres) (n : Z) : list mres * list (list mres) :=
  let after s a m c x d := id_ 7 :: fine :: before ++ [fine; found [seen 7 "executor" s 0 a m 0 [] c x d]] in
  (after st n 6 None None None,
   [after other n 6 None None None; after st (n + 1) 6 None None None; after st (n - 1) 6 None None None;
    after st n 5 None None None; after st n 7 None None None; after st n 6 (Some 0) None None;
    after st n 6 None (Some 0) None; after st n 6 None None (Some 0);
    id_ 7 :: fine :: before ++ [gone; found [seen 7 "executor" st 0 n 6 0 [] None None None]];
    id_ 7 :: fine :: before ++ [fine; found []];
    bad_id :: fine :: before ++ [fine; found [seen 7 "executor" st 0 n 6 0 [] None None None]]]).
Definition snooze_seen (st other : status) (before : list mres) (n : Z) : list mres * list (list mres) :=
  let after s a t := id_ 7 :: fine :: before ++ [fine; found [seen 7 "executor" s 0 a 5 t [] None None None]] in
  let t := at_ms 1 + a_day in
  (after st n (t + 999999),
   [after other n t; after st (n + 1) t; after st (n - 1) t; after st n (t + 1000000); after st n (t - 1000000);
    id_ 7 :: fine :: before ++ [gone; found [seen 7 "executor" st 0 n 5 t [] None None None]];
    id_ 7 :: fine :: before ++ [fine; found []];
    bad_id :: fine :: before ++ [fine; found [seen 7 "executor" st 0 n 5 t [] None None None]]]).
(** A whole prune: two hundred jobs, and what is left after each step. *)
Definition prune_seen (a b c : nat) (p1 p2 p3 : mres) : list mres :=
  flat_map (fun i => [id_ (Z.of_nat i); fine]) (seq 0 200) ++ [p1; many a; p2; many b; p3; many c].

Example C85_assertions :
  forallb (fun b => b)
   [tells test_subscribe [fine; id_ 7; id_ 9; next_is (plain 9 "executor")]
    [[fine; id_ 7; id_ 9; next_is (plain 7 "executor")]; [fine; id_ 7; id_ 9; next_is (plain 9 "another_executor")];
     [fine; bad_id; id_ 9; next_is (plain 9 "executor")]; [fine; id_ 7; bad_id; next_is (plain 9 "executor")];
     [fine; id_ 7; id_ 9; RJob (Err BadState)]];
    tells test_wakes [fine; id_ 7; id_ 9; next_is (plain 7 "executor")]
    [[fine; id_ 7; id_ 9; next_is (plain 9 "another_executor")]; [fine; bad_id; id_ 9; next_is (plain 9 "executor")];
     [fine; id_ 7; bad_id; next_is (plain 9 "executor")]; [fine; id_ 7; id_ 9; RJob (Err BadState)]];
    tells test_by_priority
       [fine; id_ 7; id_ 8; id_ 9; next_is (prio_ 9 0); next_is (prio_ 8 2); next_is (prio_ 7 0)]
    [[fine; id_ 7; id_ 8; id_ 9; next_is (prio_ 6 0); next_is (prio_ 8 2); next_is (prio_ 7 0)];
     [fine; id_ 7; id_ 8; id_ 9; next_is (prio_ 9 0); next_is (prio_ 6 2); next_is (prio_ 7 0)];
     [fine; id_ 7; id_ 8; id_ 9; next_is (prio_ 9 0); next_is (prio_ 8 2); next_is (prio_ 6 0)];
     [fine; bad_id; id_ 8; id_ 9; next_is (prio_ 9 0); next_is (prio_ 8 2); next_is (prio_ 7 0)]];
    tells test_one_stream [fine; fine; id_ 7; id_ 9; next_is (plain 9 "executor"); next_is (plain 7 "executor")]
    [[fine; fine; id_ 7; id_ 9; next_is (plain 9 "executor"); next_is (plain 9 "executor")];
     [fine; fine; id_ 7; id_ 9; next_is (plain 7 "executor"); next_is (plain 7 "executor")];
     [fine; fine; id_ 7; id_ 9; next_is (plain 7 "executor"); next_is (plain 8 "executor")];
     [fine; fine; id_ 7; id_ 9; next_is (plain 8 "executor"); next_is (plain 9 "executor")];
     [fine; fine; id_ 7; id_ 7; next_is (plain 7 "executor"); next_is (plain 8 "executor")];
     [fine; fine; id_ 7; id_ 7; next_is (plain 8 "executor"); next_is (plain 7 "executor")]];
    tells test_enqueue [id_ 7; id_ 9; found [plain 7 "executor"]; found [plain 9 "executor"]]
    [[id_ 7; id_ 7; found [plain 7 "executor"]; found [plain 9 "executor"]];
     [id_ 7; id_ 9; found []; found [plain 9 "executor"]]; [id_ 7; id_ 9; found [plain 7 "executor"]; found []];
     [id_ 7; id_ 9; found [plain 7 "executor"; plain 7 "executor"]; found [plain 9 "executor"]]];
    tells test_unique [id_ 7; id_ 7; found [plain 7 "executor"]]
    [[id_ 7; id_ 9; found [plain 7 "executor"]]; [id_ 7; id_ 7; found []]];
    tells test_unique_no_matching [id_ 7; id_ 9; found [plain 7 "executor"]; found [plain 9 "executor"]]
    [[id_ 7; id_ 7; found [plain 7 "executor"]; found [plain 9 "executor"]];
     [id_ 7; id_ 9; found []; found [plain 9 "executor"]]; [id_ 7; id_ 9; found [plain 7 "executor"]; found []]];
    tells test_unique_replace [id_ 7; id_ 7; found [prio_ 7 0]]
    [[id_ 7; id_ 9; found [prio_ 7 0]]; [id_ 7; id_ 7; found [prio_ 7 2]]; [id_ 7; id_ 7; found []]];
    tells test_update [id_ 7; found [prio_ 7 0]; fine; found [prio_ 7 3]]
    [[id_ 7; found []; fine; found [prio_ 7 3]]; [id_ 7; found [prio_ 7 0]; gone; found [prio_ 7 3]];
     [id_ 7; found [prio_ 7 0]; fine; found [prio_ 7 0]]; [id_ 7; found [prio_ 7 0]; fine; found []]];
    tells test_complete [id_ 7; fine; found [stat_ Complete]]
    [[id_ 7; gone; found [stat_ Complete]]; [id_ 7; fine; found [stat_ Scheduled]]; [id_ 7; fine; found []]];
    forallb (fun q => tells q [gone] [[fine]; [RUnit (Err BadState)]; [RUnit (Err Io)]; [RUnit Panic]])
       [test_update_not_found; test_complete_not_found; test_rerun_not_found; test_snoozed_not_found;
        test_discarded_not_found; test_retryable_not_found; test_cancelled_not_found];
    (let (g, b) := rerun_seen Scheduled Retryable [next_is (plain 7 "executor"); fine] 1 in tells test_rerun_first g b);
    (let (g, b) := rerun_seen Retryable Scheduled
        [next_is (plain 7 "executor"); fine; next_is (plain 7 "executor"); fine] 2 in tells test_rerun_subsequent g b);
    (let (g, b) := snooze_seen Scheduled Retryable [next_is (plain 7 "executor"); fine] 0 in tells test_snoozed_first g b);
    (let (g, b) := snooze_seen Retryable Scheduled
        [next_is (plain 7 "executor"); fine; next_is (plain 7 "executor"); fine] 1 in tells test_snoozed_other g b);
    fails test_rerun_first [id_ 7; fine; next_is (plain 7 "executor"); gone];
    (let (g, b) := report_seen Discarded Cancelled in tells test_discarded g b);
    (let (g, b) := report_seen Retryable Scheduled in tells test_retryable g b);
    (let (g, b) := report_seen Cancelled Discarded in tells test_cancelled g b);
    tells test_query [id_ 7; id_ 8; id_ 9; many 0; many 1; many 2]
    [[id_ 7; id_ 8; id_ 9; many 1; many 1; many 2]; [id_ 7; id_ 8; id_ 9; many 0; many 0; many 2];
     [id_ 7; id_ 8; id_ 9; many 0; many 2; many 2]; [id_ 7; id_ 8; id_ 9; many 0; many 1; many 3];
     [id_ 7; id_ 8; id_ 9; many 0; many 1; many 1]; [id_ 7; id_ 8; id_ 9; RJobs (Err BadState); many 1; many 2]];
    tells test_prune (prune_seen 200 150 100 fine fine fine)
    [prune_seen 199 150 100 fine fine fine; prune_seen 201 150 100 fine fine fine; prune_seen 200 149 100 fine fine fine;
     prune_seen 200 151 100 fine fine fine; prune_seen 200 150 99 fine fine fine; prune_seen 200 150 101 fine fine fine;
     prune_seen 200 150 100 gone fine fine; prune_seen 200 150 100 fine gone fine; prune_seen 200 150 100 fine fine gone]] = true
  (** A test that cannot tell the time fails. *)
  /\ map (fun q => play told [gone; fine; fine] q (repeat dt_max 9))
       [test_update_not_found; test_snoozed_not_found; test_retryable_not_found; test_by_priority]
     = repeat (Some false) 4.
Proof. split; vm_compute; reflexivity. Qed.
