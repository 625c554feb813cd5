(** The in-memory backend, rexecutor/src/backend/memory.rs, one definition per Rust function.

    Simplifications, all local to this file:
    - one clock reading [now] per operation (Rust calls [Utc::now()] once per job or field);
    - the map of subscribers is a flat list of subscriptions in order of registration; a
      subscription is its executor name and the queue of its unbounded channel; send errors
      (receiver dropped) are ignored by the code and dropped subscriptions are not removed by it;
    - the subscriber lock is never poisoned (no code panics while holding it);
    - the [u32] counter of [prune_jobs] does not overflow (needs 2^32 stored jobs). *)
From Verif Require Import Base Chrono Types Query.

(** memory.rs 91-95: [KeyedJob]. *)
Record kjob := mk_kjob { kj_job : job; kj_key : option Z }.

(** memory.rs 34-38 and 75: one subscription = executor and pending channel messages. *)
Record sub := mk_sub { sub_executor : string; sub_queue : list time }.

(** memory.rs 83-89: [InMemoryBackend]; [m_poisoned] is the poison flag of the jobs lock. *)
Record mem := mk_mem {
  m_jobs : list kjob;
  m_next_id : Z;
  m_subs : list sub;
  m_paused : bool;
  m_poisoned : bool
}.

(** memory.rs 110-112: [InMemoryBackend::new] (derived [Default]). *)
Definition mem_init : mem := mk_mem [] 0 [] false false.

(** memory.rs 84: replacing the contents of the jobs vector. *)
Definition set_jobs (l : list kjob) (m : mem) : mem :=
  mk_mem l (m_next_id m) (m_subs m) (m_paused m) (m_poisoned m).
(** memory.rs 86: replacing the subscriptions. *)
Definition set_subs (l : list sub) (m : mem) : mem :=
  mk_mem (m_jobs m) (m_next_id m) l (m_paused m) (m_poisoned m).
(** std [RwLock]: a panic while the write guard of memory.rs 84 is held poisons it. *)
Definition poison (m : mem) : mem :=
  mk_mem (m_jobs m) (m_next_id m) (m_subs m) (m_paused m) true.

(** memory.rs 120-123: [paused]. *)
Definition mem_paused (m : mem) : mem :=
  mk_mem (m_jobs m) (m_next_id m) (m_subs m) true (m_poisoned m).

(** [UnboundedSender::send] to one subscription, memory.rs 137, 196. *)
Definition sub_send (t : time) (s : sub) : sub := mk_sub (sub_executor s) (sub_queue s ++ [t]).

(** memory.rs 129-142: [notify_all]. *)
Definition mem_notify_all (now : time) (m : mem) : mem := set_subs (map (sub_send now) (m_subs m)) m.

(** memory.rs 183-201: [notify_subscribers]. *)
Definition notify_subscribers (executor : string) (scheduled_at : time) (m : mem) : mem :=
  if m_paused m then m
  else set_subs
         (map (fun s => if String.eqb (sub_executor s) executor then sub_send scheduled_at s else s)
              (m_subs m)) m.

(** memory.rs 360-370: the registration part of [subscribe_ready_jobs]. *)
Definition mem_subscribe (executor : string) (m : mem) : mem :=
  set_subs (m_subs m ++ [mk_sub executor []]) m.

(** memory.rs 203-212: [matching_jobs], for any matching predicate. *)
Definition matching_jobs (p : kjob -> bool) (m : mem) : result (list kjob) :=
  if m_poisoned m then Err BadState else Ok (filter p (m_jobs m)).

(** memory.rs 507-513: [query]. *)
Definition mem_query (q : query) (m : mem) : result (list job) :=
  match matching_jobs (fun k => query_matches q (kj_job k)) m with
  | Ok l => Ok (map kj_job l)
  | Err e => Err e
  | Panic => Panic
  end.

(** Rust [Iterator::min] on times, memory.rs 156. *)
Fixpoint min_time (l : list time) : option time :=
  match l with
  | [] => None
  | t :: l' => match min_time l' with None => Some t | Some u => Some (Z.min t u) end
  end.

(** memory.rs 144-157: [next_available_job_scheduled_at_for_executor]. *)
Definition next_available (executor : string) (m : mem) : result (option time) :=
  match mem_query (QAnd [QExecutorEqual executor;
                         QOr [QStatusEqual Scheduled; QStatusEqual Retryable]]) m with
  | Ok jobs => Ok (min_time (map j_scheduled_at jobs))
  | Err e => Err e
  | Panic => Panic
  end.

(** memory.rs 282-286: [Job::mark_job_executing]; [None] is the overflow panic of [attempt += 1]. *)
Definition job_executing (p : profile) (now : time) (j : job) : option job :=
  match i32_arith p (j_attempt j + 1) with
  | None => None
  | Some a => Some (set_status Executing (set_attempt a (set_attempted_at (Some now) j)))
  end.

(** memory.rs 288-291: [Job::mark_job_complete]. *)
Definition job_complete (now : time) (j : job) : job :=
  set_status Complete (set_completed_at (Some now) j).

(** memory.rs 293-300: [Job::mark_job_snoozed]; [None] is the overflow panic of [attempt -= 1]. *)
Definition job_snoozed (p : profile) (scheduled_at : time) (j : job) : option job :=
  let st := if j_attempt j =? 1 then Scheduled else Retryable in
  match i32_arith p (j_attempt j - 1) with
  | None => None
  | Some a => Some (set_attempt a (set_status st (set_scheduled_at scheduled_at j)))
  end.

(** memory.rs 270-279: [ExecutionError::into_job_error]. *)
Definition into_job_error (now : time) (attempt : Z) (e : exec_error) : job_error :=
  mk_job_error attempt (ee_type e) (ee_message e) now.

(** memory.rs 302-306: [Job::mark_job_retryable]. *)
Definition job_retryable (now : time) (scheduled_at : time) (e : exec_error) (j : job) : job :=
  set_status Retryable
    (set_errors (j_errors j ++ [into_job_error now (as_u16 (j_attempt j)) e])
       (set_scheduled_at scheduled_at j)).

(** memory.rs 308-312: [Job::mark_job_discarded]. *)
Definition job_discarded (now : time) (e : exec_error) (j : job) : job :=
  set_status Discarded
    (set_errors (j_errors j ++ [into_job_error now (as_u16 (j_attempt j)) e])
       (set_discarded_at (Some now) j)).

(** memory.rs 314-318: [Job::mark_job_cancelled]. *)
Definition job_cancelled (now : time) (e : exec_error) (j : job) : job :=
  set_status Cancelled
    (set_errors (j_errors j ++ [into_job_error now (as_u16 (j_attempt j)) e])
       (set_cancelled_at (Some now) j)).

(** memory.rs 320-330: [Job::mark_job_rerunable]; [None] is the overflow panic of
    [max_attempts += 1]. *)
Definition job_rerunable (p : profile) (now : time) (j : job) : option job :=
  let st := if j_attempt j =? 1 then Scheduled else Retryable in
  match i32_arith p (j_max_attempts j + 1) with
  | None => None
  | Some a =>
      Some (set_cancelled_at None (set_discarded_at None (set_completed_at None
             (set_scheduled_at now (set_max_attempts a (set_status st j))))))
  end.

(** memory.rs 331-355: [Job::replace]. *)
Definition job_replace (e : enqueuable) (j : job) : job :=
  match eq_criteria e with
  | Some (mk_criteria _ _ _ _ (Replace r)) =>
      if status_mem (j_status j) (rp_for_statuses r) then
        let j := if rp_scheduled_at r then set_scheduled_at (eq_scheduled_at e) j else j in
        let j := if rp_data r then set_data (eq_data e) j else j in
        let j := if rp_metadata r then set_metadata (eq_metadata e) j else j in
        let j := if rp_priority r then set_priority (eq_priority e) j else j in
        if rp_max_attempts r then set_max_attempts (eq_max_attempts e) j else j
      else j
  | _ => j
  end.

(** memory.rs 244-268: [EnqueuableJob::into_job]. *)
Definition into_job (now : time) (id : Z) (e : enqueuable) : kjob :=
  mk_kjob
    {| j_id := id; j_status := Scheduled; j_executor := eq_executor e;
       j_data := eq_data e; j_metadata := eq_metadata e; j_attempt := 0;
       j_max_attempts := eq_max_attempts e; j_priority := eq_priority e; j_tags := eq_tags e;
       j_errors := []; j_inserted_at := now; j_scheduled_at := eq_scheduled_at e;
       j_attempted_at := None; j_completed_at := None; j_cancelled_at := None;
       j_discarded_at := None |}
    (match eq_criteria e with Some uq => uc_key uq | None => None end).

(** queryable.rs 53, 57: [Option<i64>] equality. *)
Definition key_eqb (a b : option Z) : bool :=
  match a, b with
  | None, None => true
  | Some x, Some y => x =? y
  | _, _ => false
  end.

(** rexecutor/src/backend/queryable.rs 50-72: [Queryable::matches] for [EnqueuableJob]. *)
Definition enqueuable_matches (now : time) (e : enqueuable) (k : kjob) : bool :=
  match eq_criteria e with
  | None => false
  | Some uq =>
      key_eqb (uc_key uq) (kj_key k)
      && (negb (uc_executor uq) || String.eqb (eq_executor e) (j_executor (kj_job k)))
      && status_mem (j_status (kj_job k)) (uc_statuses uq)
      && match uc_duration uq with
         | None => true
         | Some d => Z.abs (dt_diff (j_scheduled_at (kj_job k)) now) <? d
         end
  end.

(** Rust [iter_mut().find(p)]: the first element satisfying [p], with what precedes and follows. *)
Fixpoint split_first {A} (p : A -> bool) (l : list A) : option (list A * A * list A) :=
  match l with
  | [] => None
  | x :: l' =>
      if p x then Some ([], x, l')
      else match split_first p l' with
           | None => None
           | Some (pre, y, post) => Some (x :: pre, y, post)
           end
  end.

(** The common shape of memory.rs 389-457, 485-506: take the write lock, find the job by id, change
    it, and (for some operations) notify while still holding the lock. *)
Definition with_job (m : mem) (id : Z) (f : job -> option job) (notify : bool) : mem * result unit :=
  if m_poisoned m then (m, Err BadState)
  else match split_first (fun k => j_id (kj_job k) =? id) (m_jobs m) with
       | None => (m, Err (JobNotFound id))
       | Some (pre, k, post) =>
           match f (kj_job k) with
           | None => (poison m, Panic)
           | Some j' =>
               let m' := set_jobs (pre ++ mk_kjob j' (kj_key k) :: post) m in
               (if notify then notify_subscribers (j_executor j') (j_scheduled_at j') m' else m',
                Ok tt)
           end
       end.

(** memory.rs 389-398: [mark_job_complete]. *)
Definition mem_mark_complete (now : time) (m : mem) (id : Z) : mem * result unit :=
  with_job m id (fun j => Some (job_complete now j)) false.

(** memory.rs 399-414: [mark_job_retryable]. *)
Definition mem_mark_retryable (now : time) (m : mem) (id : Z) (t : time) (e : exec_error)
  : mem * result unit :=
  with_job m id (fun j => Some (job_retryable now t e j)) true.

(** memory.rs 415-428: [mark_job_discarded]. *)
Definition mem_mark_discarded (now : time) (m : mem) (id : Z) (e : exec_error) : mem * result unit :=
  with_job m id (fun j => Some (job_discarded now e j)) false.

(** memory.rs 429-442: [mark_job_cancelled]. *)
Definition mem_mark_cancelled (now : time) (m : mem) (id : Z) (e : exec_error) : mem * result unit :=
  with_job m id (fun j => Some (job_cancelled now e j)) false.

(** memory.rs 443-457: [mark_job_snoozed]. *)
Definition mem_mark_snoozed (p : profile) (m : mem) (id : Z) (t : time) : mem * result unit :=
  with_job m id (job_snoozed p t) true.

(** memory.rs 485-495: [rerun_job]. *)
Definition mem_rerun (p : profile) (now : time) (m : mem) (id : Z) : mem * result unit :=
  with_job m id (job_rerunable p now) true.

(** memory.rs 496-506: [update_job]: the stored job is replaced as a whole, its key is kept. *)
Definition mem_update (m : mem) (j : job) : mem * result unit :=
  with_job m (j_id j) (fun _ => Some j) true.

(** memory.rs 214-227: [insert_new_job].  The id is drawn before the lock is taken. *)
Definition insert_new_job (now : time) (m : mem) (e : enqueuable) : mem * result Z :=
  let id := m_next_id m in
  let m1 := mk_mem (m_jobs m) (wrap_i32 (m_next_id m + 1)) (m_subs m) (m_paused m) (m_poisoned m) in
  if m_poisoned m1 then (m1, Err BadState)
  else
    let m2 := set_jobs (m_jobs m1 ++ [into_job now id e]) m1 in
    (notify_subscribers (eq_executor e) (eq_scheduled_at e) m2, Ok id).

(** memory.rs 229-241: [insert_unique_job], without interference from other threads (the
    interleaved version is in MemConc.v). *)
Definition insert_unique_job (now : time) (m : mem) (e : enqueuable) : mem * result Z :=
  match matching_jobs (enqueuable_matches now e) m with
  | Err err => (m, Err err)
  | Panic => (m, Panic)
  | Ok [] => insert_new_job now m e
  | Ok (k :: _) =>
      let j := job_replace e (kj_job k) in
      match mem_update m j with
      | (m', Ok _) => (m', Ok (j_id j))
      | (m', Err err) => (m', Err err)
      | (m', Panic) => (m', Panic)
      end
  end.

(** memory.rs 383-388: [enqueue]. *)
Definition mem_enqueue (now : time) (m : mem) (e : enqueuable) : mem * result Z :=
  match eq_criteria e with
  | None => insert_new_job now m e
  | Some _ => insert_unique_job now m e
  end.

(** memory.rs 166-170: the filter of [load_job_mark_as_executing_for_executor]. *)
Definition load_filter (now : time) (executor : string) (k : kjob) : bool :=
  let j := kj_job k in
  String.eqb (j_executor j) executor
  && (dt_diff (j_scheduled_at j) now <? 100 * ns_per_ms)
  && (status_eqb (j_status j) Retryable || status_eqb (j_status j) Scheduled).

(** memory.rs 172-176: the comparison of [sort_by], [a <= b]. *)
Definition load_leb (a b : job) : bool :=
  match Z.compare (j_scheduled_at a) (j_scheduled_at b) with
  | Lt => true
  | Gt => false
  | Eq => match Z.compare (j_priority a) (j_priority b) with Gt => false | _ => true end
  end.

(** Rust's [sort_by] is stable: insertion sort putting an element before its equals. *)
Fixpoint insert_sorted {A} (leb : A -> A -> bool) (x : A) (l : list A) : list A :=
  match l with
  | [] => [x]
  | y :: l' => if leb x y then x :: y :: l' else y :: insert_sorted leb x l'
  end.
Definition stable_sort {A} (leb : A -> A -> bool) (l : list A) : list A :=
  fold_right (insert_sorted leb) [] l.

(** [iter_mut] gives references to positions; [number] pairs each element with its position. *)
Fixpoint number {A} (i : nat) (l : list A) : list (nat * A) :=
  match l with
  | [] => []
  | x :: l' => (i, x) :: number (S i) l'
  end.
(** Writing through such a reference. *)
Fixpoint set_nth {A} (n : nat) (x : A) (l : list A) : list A :=
  match l, n with
  | [], _ => []
  | _ :: l', O => x :: l'
  | y :: l', S n' => y :: set_nth n' x l'
  end.

(** memory.rs 159-181: [load_job_mark_as_executing_for_executor].  A poisoned lock panics here
    ([write().unwrap()], line 163) without changing the poison flag. *)
Definition mem_load (p : profile) (now : time) (m : mem) (executor : string)
  : mem * result (option job) :=
  if m_poisoned m then (m, Panic)
  else
    let cands := filter (fun ik => load_filter now executor (snd ik)) (number 0 (m_jobs m)) in
    match stable_sort (fun a b => load_leb (kj_job (snd a)) (kj_job (snd b))) cands with
    | [] => (m, Ok None)
    | (i, k) :: _ =>
        match job_executing p now (kj_job k) with
        | None => (poison m, Panic)
        | Some j' => (set_jobs (set_nth i (mk_kjob j' (kj_key k)) (m_jobs m)) m, Ok (Some j'))
        end
    end.

(** memory.rs 473-481: the [retain] of [prune_jobs] for [MaxLength]. *)
Fixpoint retain_max_length (ps : prune_spec) (n count : Z) (l : list kjob) : list kjob :=
  match l with
  | [] => []
  | k :: l' =>
      if prune_matches ps (kj_job k) then
        let count := count + 1 in
        if n <? count then k :: retain_max_length ps n count l'
        else retain_max_length ps n count l'
      else k :: retain_max_length ps n count l'
  end.

(** memory.rs 458-484: [prune_jobs].  [now - delta] and [now + delta] panic on overflow while the
    write lock is held. *)
Definition mem_prune (now : time) (m : mem) (ps : prune_spec) : mem * result unit :=
  if m_poisoned m then (m, Err BadState)
  else match ps_by ps with
       | MaxAge d =>
           match dt_sub now d, dt_add now d with
           | Some lo, Some hi =>
               (set_jobs
                  (filter (fun k => negb (prune_matches ps (kj_job k))
                                    || ((j_scheduled_at (kj_job k) <? hi)
                                        && (lo <? j_scheduled_at (kj_job k))))
                          (m_jobs m)) m, Ok tt)
           | _, _ => (poison m, Panic)
           end
       | MaxLength n => (set_jobs (retain_max_length ps n 0 (m_jobs m)) m, Ok tt)
       end.

(** The public operations (rexecutor/src/backend.rs 35-108, memory.rs 120-142), plus [OpLoad], the
    call made by a worker stream, memory.rs 62-64. *)
Inductive mop :=
| OpEnqueue (e : enqueuable)
| OpLoad (executor : string)
| OpComplete (id : Z)
| OpRetryable (id : Z) (t : time) (e : exec_error)
| OpDiscarded (id : Z) (e : exec_error)
| OpCancelled (id : Z) (e : exec_error)
| OpSnoozed (id : Z) (t : time)
| OpPrune (ps : prune_spec)
| OpRerun (id : Z)
| OpUpdate (j : job)
| OpQuery (q : query)
| OpSubscribe (executor : string)
| OpNotifyAll
| OpPause.

(** What the caller of an operation observes (rexecutor/src/backend.rs 35-108 return types). *)
Inductive mres :=
| RId (r : result Z)
| RUnit (r : result unit)
| RJob (r : result (option job))
| RJobs (r : result (list job)).

(** One whole operation executed without interference. *)
Definition mem_step (p : profile) (now : time) (m : mem) (o : mop) : mem * mres :=
  match o with
  | OpEnqueue e => let (m', r) := mem_enqueue now m e in (m', RId r)
  | OpLoad ex => let (m', r) := mem_load p now m ex in (m', RJob r)
  | OpComplete id => let (m', r) := mem_mark_complete now m id in (m', RUnit r)
  | OpRetryable id t e => let (m', r) := mem_mark_retryable now m id t e in (m', RUnit r)
  | OpDiscarded id e => let (m', r) := mem_mark_discarded now m id e in (m', RUnit r)
  | OpCancelled id e => let (m', r) := mem_mark_cancelled now m id e in (m', RUnit r)
  | OpSnoozed id t => let (m', r) := mem_mark_snoozed p m id t in (m', RUnit r)
  | OpPrune ps => let (m', r) := mem_prune now m ps in (m', RUnit r)
  | OpRerun id => let (m', r) := mem_rerun p now m id in (m', RUnit r)
  | OpUpdate j => let (m', r) := mem_update m j in (m', RUnit r)
  | OpQuery q => (m, RJobs (mem_query q m))
  | OpSubscribe ex => (mem_subscribe ex m, RUnit (Ok tt))
  | OpNotifyAll => (mem_notify_all now m, RUnit (Ok tt))
  | OpPause => (mem_paused m, RUnit (Ok tt))
  end.

(** A history: operations with the clock reading each one saw. *)
Fixpoint mem_run (p : profile) (m : mem) (h : list (time * mop)) : mem :=
  match h with
  | [] => m
  | (now, o) :: h' => mem_run p (fst (mem_step p now m o)) h'
  end.
