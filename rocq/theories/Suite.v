(** The suite every backend is tested with, rexecutor/src/backend/testing.rs (exported as
    [test_suite!]), run by both backends.  Line numbers without a file are in that file.

    Simplifications:
    - a test is a program over the operations of one backend which nothing else uses;
    - [stream.next().await] is [Next]: it polls until the load of the stream (src/backend/memory.rs
      62-64, rexecutor-sqlx/src/stream.rs 31-39) gives a job or an error, and may sleep in between;
      wake-ups are the subject of MemConc.v and PgListen.v;
    - the task spawned at 310-316 runs after both jobs are in, without its two second limit;
    - the two streams of 382-388 are polled one after the other. *)
From Verif Require Import Base Chrono Types Query Builder Memory Pg.

(** A test: reading the clock, an operation of the backend, the next item of a stream for an
    executor, and the end, which says whether the test passes.  A failed [assert!], [unwrap] or
    [expect], 289-784, is [Fin false]. *)
Inductive prog :=
| Now (k : time -> prog)
| Call (o : mop) (k : mres -> prog)
| Next (executor : string) (k : result (option job) -> prog)
| Fin (passed : bool).

(** * Assertions and unwrapping *)

(** [assert!], [assert_eq!], [assert_ne!] (among others 302-303, 400). *)
Definition check (b : bool) (k : prog) : prog := if b then k else Fin false.
(** [.await.unwrap()] on an id (among others 292-299). *)
Definition enqueue_ (e : enqueuable) (k : Z -> prog) : prog :=
  Call (OpEnqueue e) (fun r => match r with RId (Ok id) => k id | _ => Fin false end).
(** [.await.unwrap()], or [assert!(.. .is_ok())], on a unit (among others 491, 740). *)
Definition ok_ (o : mop) (k : prog) : prog :=
  Call o (fun r => match r with RUnit (Ok _) => k | _ => Fin false end).
(** [assert!(matches!(.., Err(BackendError::JobNotFound(_))))], among others 481-484. *)
Definition not_found_ (o : mop) : prog :=
  Call o (fun r => match r with RUnit (Err (JobNotFound _)) => Fin true | _ => Fin false end).
(** [query(..).await.unwrap()], among others 709-716. *)
Definition query_ (q : query) (k : list job -> prog) : prog :=
  Call (OpQuery q) (fun r => match r with RJobs (Ok l) => k l | _ => Fin false end).
(** 266, 291, 309, 334, 372-373: [subscribe_ready_jobs]. *)
Definition subscribe_ (executor : string) (k : prog) : prog := Call (OpSubscribe executor) (fun _ => k).
(** [stream.next().await.unwrap().unwrap()], among others 301. *)
Definition next_ (executor : string) (k : job -> prog) : prog :=
  Next executor (fun r => match r with Ok (Some j) => k j | _ => Fin false end).
(** [now + delta] and [now - delta]: panic when out of range, among others 333, 556, 733. *)
Definition shift (t : option time) (k : time -> prog) : prog :=
  match t with Some t => k t | None => Fin false end.

(** 279-283: [get_job]; [pop] takes the last element. *)
Definition get_job (id : Z) (k : option job -> prog) : prog :=
  query_ (QIdEquals id) (fun jobs =>
    check (Z.of_nat (length jobs) <=? 1)
      (k (match rev jobs with [] => None | j :: _ => Some j end))).
(** [get_job(id).await.unwrap()], among others 469. *)
Definition the_job (id : Z) (k : job -> prog) : prog :=
  get_job id (fun j => match j with Some j => k j | None => Fin false end).
(** [assert!(get_job(id).await.is_some())], among others 401. *)
Definition exists_job (id : Z) (k : prog) : prog := the_job id (fun _ => k).

(** * What the tests are made of *)

(** 13. *)
Definition default_executor : string := "executor"%string.
(** Among others 704. *)
Definition other_executor : string := "other_executor"%string.
(** 20-31: [mock_job]. *)
Definition mock_job (k : enqueuable -> prog) : prog :=
  Now (fun now => k (mk_enqueuable default_executor (JStr "data"%string) (JStr "metadata"%string) 5 now [] 0 None)).
(** 33-38: [with_executor]. *)
Definition with_executor (ex : string) (e : enqueuable) : enqueuable :=
  mk_enqueuable ex (eq_data e) (eq_metadata e) (eq_max_attempts e) (eq_scheduled_at e) (eq_tags e)
    (eq_priority e) (eq_criteria e).
(** 40-42: [with_priority]. *)
Definition with_priority_of (p : Z) (e : enqueuable) : enqueuable :=
  mk_enqueuable (eq_executor e) (eq_data e) (eq_metadata e) (eq_max_attempts e) (eq_scheduled_at e)
    (eq_tags e) p (eq_criteria e).
(** 44-49: [with_scheduled_at]. *)
Definition with_time (t : time) (e : enqueuable) : enqueuable :=
  mk_enqueuable (eq_executor e) (eq_data e) (eq_metadata e) (eq_max_attempts e) t (eq_tags e)
    (eq_priority e) (eq_criteria e).
(** 51-59: [with_uniqueness_criteria]. *)
Definition with_uniqueness (u : criteria) (e : enqueuable) : enqueuable :=
  mk_enqueuable (eq_executor e) (eq_data e) (eq_metadata e) (eq_max_attempts e) (eq_scheduled_at e)
    (eq_tags e) (eq_priority e) (Some u).
(** 230-250: [raw_job]. *)
Definition raw_job (k : job -> prog) : prog :=
  Now (fun now =>
    shift (dt_add now (7200 * ns_per_s)) (fun at_ =>
      k {| j_id := 0; j_status := Scheduled; j_executor := default_executor; j_data := JNull;
           j_metadata := JNull; j_attempt := 0; j_max_attempts := 3; j_priority := 0; j_tags := [];
           j_errors := []; j_inserted_at := now; j_scheduled_at := at_; j_attempted_at := None;
           j_completed_at := None; j_cancelled_at := None; j_discarded_at := None |})).
(** 269-272 and the like. *)
Definition custom_error : exec_error := mk_exec_error (EOther "custom"%string) "Error Message"%string.
(** 14. *)
Definition tolerance : delta := ns_per_ms.
(** [Utc::now().add(TimeDelta::days(1))], among others 556. *)
Definition tomorrow (k : time -> prog) : prog := Now (fun now => shift (dt_add now (86400 * ns_per_s)) k).
(** [TimeDelta::minutes(2)], among others 410. *)
Definition two_minutes : delta := 120 * ns_per_s.
(** 267-276: the loop of [increment_job_attempt]; what the stream yields is ignored. *)
Fixpoint attempts_ (n : nat) (id : Z) (executor : string) (k : prog) : prog :=
  match n with
  | O => k
  | S n' =>
      Next executor (fun _ => Now (fun now => ok_ (OpRetryable id now custom_error) (attempts_ n' id executor k)))
  end.
(** 260-277: [increment_job_attempt]. *)
Definition increment_job_attempt (id : Z) (n : nat) (executor : string) (k : prog) : prog :=
  subscribe_ executor (attempts_ n id executor k).

(** Comparisons of the tests: [ErrorType] derives [PartialEq], rexecutor/src/job.rs 199. *)
Definition error_type_eqb (a b : error_type) : bool :=
  match a, b with
  | EPanic, EPanic | ETimeout, ETimeout | ECancelled, ECancelled => true
  | EOther x, EOther y => String.eqb x y
  | _, _ => false
  end.
(** [Option::is_none], among others 521. *)
Definition is_none {A} (o : option A) : bool := match o with None => true | Some _ => false end.

(** * The tests *)

(** 289-304. *)
Definition test_subscribe : prog :=
  subscribe_ "executor"%string
    (mock_job (fun e => enqueue_ (with_executor "another_executor"%string e) (fun _ =>
     mock_job (fun e => enqueue_ (with_executor "executor"%string e) (fun id =>
     next_ "executor"%string (fun j =>
     check (j_id j =? id) (check (String.eqb (j_executor j) "executor"%string) (Fin true)))))))).

(** 307-327. *)
Definition test_wakes : prog :=
  subscribe_ "executor"%string
    (mock_job (fun e => enqueue_ (with_executor "another_executor"%string e) (fun _ =>
     mock_job (fun e => enqueue_ (with_executor "executor"%string e) (fun _ =>
     next_ "executor"%string (fun j => check (String.eqb (j_executor j) "executor"%string) (Fin true))))))).

(** 330-367. *)
Definition test_by_priority : prog :=
  Now (fun at1 => Now (fun now => shift (dt_add now (500 * ns_per_ms)) (fun at2 =>
  subscribe_ "executor"%string
    (mock_job (fun e => enqueue_ (with_time at2 (with_executor "executor"%string e)) (fun id1 =>
     mock_job (fun e => enqueue_ (with_time at1 (with_priority_of 2 (with_executor "executor"%string e))) (fun id2 =>
     mock_job (fun e => enqueue_ (with_time at1 (with_executor "executor"%string e)) (fun id3 =>
     next_ "executor"%string (fun a => next_ "executor"%string (fun b => next_ "executor"%string (fun c =>
     check (j_id a =? id3) (check (j_id b =? id2) (check (j_id c =? id1) (Fin true)))))))))))))))).

(** 370-393; equality of two sets of two ids each. *)
Definition test_one_stream : prog :=
  subscribe_ "executor"%string (subscribe_ "executor"%string
    (mock_job (fun e => enqueue_ (with_executor "executor"%string e) (fun id1 =>
     mock_job (fun e => enqueue_ (with_executor "executor"%string e) (fun id2 =>
     next_ "executor"%string (fun a => next_ "executor"%string (fun b =>
     check (((j_id a =? id1) || (j_id a =? id2)) && ((j_id b =? id1) || (j_id b =? id2))
            && ((id1 =? j_id a) || (id1 =? j_id b)) && ((id2 =? j_id a) || (id2 =? j_id b)))
       (Fin true))))))))).

(** 396-403. *)
Definition test_enqueue : prog :=
  mock_job (fun e => enqueue_ e (fun id1 => mock_job (fun e => enqueue_ e (fun id2 =>
  check (negb (id1 =? id2)) (exists_job id1 (exists_job id2 (Fin true))))))).

(** 406-417. *)
Definition test_unique : prog :=
  mock_job (fun e => enqueue_ e (fun id1 =>
  mock_job (fun e => enqueue_ (with_uniqueness (and_within two_minutes by_executor) e) (fun id2 =>
  check (id2 =? id1) (exists_job id2 (Fin true)))))).

(** 420-435. *)
Definition test_unique_no_matching : prog :=
  mock_job (fun e => enqueue_ e (fun id1 =>
  mock_job (fun e => enqueue_ (with_uniqueness (and_within two_minutes (by_statuses [Retryable])) e) (fun id2 =>
  check (negb (id1 =? id2)) (exists_job id1 (exists_job id2 (Fin true))))))).

(** 438-464. *)
Definition test_unique_replace : prog :=
  mock_job (fun e => enqueue_ (with_priority_of 2 e) (fun id1 =>
  mock_job (fun e =>
    enqueue_ (with_uniqueness
      (on_conflict (and_max_attempts (and_scheduled_at (and_metadata (and_data replace_priority))))
         (and_within two_minutes by_executor)) e) (fun id2 =>
  check (id2 =? id1) (the_job id1 (fun j => check (j_priority j =? 0) (Fin true))))))).

(** 467-476. *)
Definition test_update : prog :=
  mock_job (fun e => enqueue_ e (fun id =>
  the_job id (fun j => ok_ (OpUpdate (set_priority 3 j))
    (the_job id (fun j => check (j_priority j =? 3) (Fin true)))))).

(** 479-485. *)
Definition test_update_not_found : prog := raw_job (fun j => not_found_ (OpUpdate j)).

(** 488-496. *)
Definition test_complete : prog :=
  mock_job (fun e => enqueue_ e (fun id => ok_ (OpComplete id)
    (the_job id (fun j => check (status_eqb (j_status j) Complete) (Fin true))))).

(** 499-504. *)
Definition test_complete_not_found : prog := not_found_ (OpComplete 42).

(** 507-544, for one attempt and for two; [st] is the status asserted. *)
Definition test_rerun (n : nat) (st : status) : prog :=
  mock_job (fun e => enqueue_ e (fun id =>
  increment_job_attempt id n default_executor (ok_ (OpRerun id)
    (the_job id (fun j =>
      check (status_eqb (j_status j) st)
        (check (j_attempt j =? Z.of_nat n)
          (check (j_max_attempts j =? eq_max_attempts e + 1)
            (check (is_none (j_completed_at j)) (check (is_none (j_cancelled_at j))
              (check (is_none (j_discarded_at j)) (Fin true))))))))))).
(** 507-524. *)
Definition test_rerun_first : prog := test_rerun 1 Scheduled.
(** 527-544. *)
Definition test_rerun_subsequent : prog := test_rerun 2 Retryable.

(** 547-552. *)
Definition test_rerun_not_found : prog := not_found_ (OpRerun 42).

(** 555-584, for one attempt and for two. *)
Definition test_snoozed (n : nat) (st : status) : prog :=
  tomorrow (fun at_ => mock_job (fun e => enqueue_ e (fun id =>
  increment_job_attempt id n default_executor (ok_ (OpSnoozed id at_)
    (the_job id (fun j =>
      check (status_eqb (j_status j) st)
        (check (j_attempt j =? Z.of_nat n - 1)
          (check (Z.abs (dt_diff (j_scheduled_at j) at_) <? tolerance) (Fin true))))))))).
(** 555-568. *)
Definition test_snoozed_first : prog := test_snoozed 1 Scheduled.
(** 571-584. *)
Definition test_snoozed_other : prog := test_snoozed 2 Retryable.

(** 587-593. *)
Definition test_snoozed_not_found : prog := tomorrow (fun at_ => not_found_ (OpSnoozed 42 at_)).

(** 605-612, 643-650, 678-685: the assertions about a reported error. *)
Definition reported (st : status) (j : job) : prog :=
  check (status_eqb (j_status j) st)
    (check (Z.of_nat (length (j_errors j)) =? 1)
      match j_errors j with
      | [] => Fin false
      | e :: _ =>
          check (je_attempt e =? j_attempt j)
            (check (error_type_eqb (je_type e) (ee_type custom_error))
              (check (String.eqb (je_details e) (ee_message custom_error)) (Fin true)))
      end).

(** 596-613. *)
Definition test_discarded : prog :=
  mock_job (fun e => enqueue_ e (fun id => ok_ (OpDiscarded id custom_error) (the_job id (reported Discarded)))).
(** 616-625. *)
Definition test_discarded_not_found : prog := not_found_ (OpDiscarded 42 custom_error).

(** 628-651. *)
Definition test_retryable : prog :=
  tomorrow (fun at_ => mock_job (fun e => enqueue_ e (fun id =>
  ok_ (OpRetryable id at_ custom_error) (the_job id (reported Retryable))))).
(** 654-666. *)
Definition test_retryable_not_found : prog :=
  tomorrow (fun at_ => not_found_ (OpRetryable 42 at_ custom_error)).

(** 669-686. *)
Definition test_cancelled : prog :=
  mock_job (fun e => enqueue_ e (fun id => ok_ (OpCancelled id custom_error) (the_job id (reported Cancelled)))).
(** 689-698. *)
Definition test_cancelled_not_found : prog := not_found_ (OpCancelled 42 custom_error).

(** 701-726. *)
Definition test_query : prog :=
  mock_job (fun e => enqueue_ e (fun id =>
  mock_job (fun e => enqueue_ (with_executor other_executor e) (fun _ =>
  mock_job (fun e => enqueue_ e (fun _ =>
  query_ (QIdEquals 42) (fun l => check (Z.of_nat (length l) =? 0)
    (query_ (QIdEquals id) (fun l => check (Z.of_nat (length l) =? 1)
      (query_ (QExecutorEqual default_executor) (fun l =>
        check (Z.of_nat (length l) =? 2) (Fin true)))))))))))).

(** 731-737: the first loop, from [i] for [n] rounds. *)
Fixpoint fill_past (n : nat) (i : Z) (now : time) (k : prog) : prog :=
  match n with
  | O => k
  | S n' =>
      mock_job (fun e => shift (dt_sub now (i * 3600 * ns_per_s)) (fun at_ =>
      enqueue_ (with_time at_ e) (fun id => ok_ (OpComplete id) (fill_past n' (i + 1) now k))))
  end.
(** 738-744: the second loop. *)
Fixpoint fill_other (n : nat) (k : prog) : prog :=
  match n with
  | O => k
  | S n' =>
      mock_job (fun e => enqueue_ (with_executor other_executor e) (fun id =>
      ok_ (OpComplete id) (fill_other n' k)))
  end.
(** 755-757 and the like: the number of all jobs. *)
Definition count_ (n : Z) (k : prog) : prog :=
  query_ (QNot (QExecutorEqual ""%string)) (fun l => check (Z.of_nat (length l) =? n) k).
(** 729-784. *)
Definition test_prune : prog :=
  Now (fun now => fill_past 100 0 now (fill_other 100
    (ok_ (OpPrune (mk_prune_spec Cancelled (MaxLength 10) (Except [])))
    (count_ 200
    (ok_ (OpPrune (mk_prune_spec Complete (MaxLength 50) (Only [other_executor])))
    (count_ 150
    (ok_ (OpPrune (mk_prune_spec Complete (MaxAge (50 * 3600 * ns_per_s)) (Only [default_executor])))
    (count_ 100 (Fin true))))))))).

(** 88-222: the tests the macro generates. *)
Definition suite : list (string * prog) :=
  [("subscribe_ready_jobs"%string, test_subscribe);
   ("subscribe_ready_jobs_enqueuing_wakes_subscriber"%string, test_wakes);
   ("subscribe_ready_jobs_streams_jobs_by_priority"%string, test_by_priority);
   ("subscribe_ready_jobs_streams_only_one_steam_receives_job"%string, test_one_stream);
   ("enqueue"%string, test_enqueue);
   ("enqueue_unique"%string, test_unique);
   ("enqueue_unique_no_matching"%string, test_unique_no_matching);
   ("enqueue_unique_replace"%string, test_unique_replace);
   ("update_job"%string, test_update);
   ("update_job_not_found"%string, test_update_not_found);
   ("mark_job_complete"%string, test_complete);
   ("mark_job_complete_not_found"%string, test_complete_not_found);
   ("rerun_job_first_attempt"%string, test_rerun_first);
   ("rerun_job_first_subsequent_attempt"%string, test_rerun_subsequent);
   ("rerun_job_not_found"%string, test_rerun_not_found);
   ("mark_job_snoozed_first_attempt"%string, test_snoozed_first);
   ("mark_job_snoozed_other_attempt"%string, test_snoozed_other);
   ("mark_job_snoozed_not_found"%string, test_snoozed_not_found);
   ("mark_job_discarded"%string, test_discarded);
   ("mark_job_discarded_not_found"%string, test_discarded_not_found);
   ("mark_job_retryable"%string, test_retryable);
   ("mark_job_retryable_not_found"%string, test_retryable_not_found);
   ("mark_job_cancelled"%string, test_cancelled);
   ("mark_job_cancelled_not_found"%string, test_cancelled_not_found);
   ("query"%string, test_query);
   ("prune_jobs"%string, test_prune)].

(** * Running a test *)

(** A backend as a test sees it (src/backend.rs 35-108 and the load of its streams). *)
Record subject := mk_subject {
  su_state : Type;
  su_init : su_state;
  su_step : time -> su_state -> mop -> su_state * mres
}.
(** [InMemoryBackend::new()], src/backend/memory.rs 112-115 (the suite at 556). *)
Definition memory (p : profile) : subject := mk_subject mem mem_init (mem_step p).
(** [RexecutorPgBackend::from_pool(pool)], rexecutor-sqlx/src/lib.rs 67-102 (the suite at src/backend.rs
    209, with a fresh database for every test). *)
Definition postgres (ident : option Z -> option string -> list status -> Z) : subject :=
  mk_subject tbl tbl_init (pg_step ident).

(** One execution of a test.  [ticks c t]: the clock, last read as [c], may be read as [t] after the
    time one step takes. *)
Inductive plays (B : subject) (ticks : time -> time -> Prop) (sleeps : time -> time -> Prop)
  : su_state B -> time -> prog -> bool -> Prop :=
| plays_fin s c b : plays B ticks sleeps s c (Fin b) b
| plays_now s c t k b :
    ticks c t -> plays B ticks sleeps s t (k t) b -> plays B ticks sleeps s c (Now k) b
| plays_call s c t o k s' r b :
    ticks c t -> su_step B t s o = (s', r) -> plays B ticks sleeps s' t (k r) b ->
    plays B ticks sleeps s c (Call o k) b
| plays_next s c t ex k s' r b :
    ticks c t -> su_step B t s (OpLoad ex) = (s', RJob r) -> r <> Ok None ->
    plays B ticks sleeps s' t (k r) b ->
    plays B ticks sleeps s c (Next ex k) b
| plays_sleep s c t t' ex k s' b :
    ticks c t -> su_step B t s (OpLoad ex) = (s', RJob (Ok None)) -> sleeps t t' ->
    plays B ticks sleeps s' t' (Next ex k) b ->
    plays B ticks sleeps s c (Next ex k) b.

(** The same, for a given list of clock readings, one for every step; [None] when they run out.  [poll]
    is the loop of [next], src/backend/memory.rs 43-73. *)
Fixpoint poll (B : subject) (ex : string) (s : su_state B) (ts : list time)
  : option (su_state B * result (option job) * list time) :=
  match ts with
  | [] => None
  | t :: ts =>
      match su_step B t s (OpLoad ex) with
      | (s', RJob (Ok None)) => poll B ex s' ts
      | (s', RJob r) => Some (s', r, ts)
      | _ => None
      end
  end.
(** A test with such a list (the tests of 289-784). *)
Fixpoint play (B : subject) (s : su_state B) (q : prog) (ts : list time) {struct q} : option bool :=
  match q with
  | Fin b => Some b
  | Now k => match ts with [] => None | t :: ts => play B s (k t) ts end
  | Call o k =>
      match ts with
      | [] => None
      | t :: ts => let (s', r) := su_step B t s o in play B s' (k r) ts
      end
  | Next ex k =>
      match poll B ex s ts with None => None | Some (s', r, ts) => play B s' (k r) ts end
  end.

(** A fast machine: a step takes between [least] and [most], and nothing happens outside the years
    the tests can count on; a sleep lasts as long as it likes. *)
Definition steady (least most lo hi : Z) (c t : time) : Prop :=
  c + least <= t <= c + most /\ lo <= t <= hi.
Definition rests (lo hi : Z) (c t : time) : Prop := c <= t /\ lo <= t <= hi.
