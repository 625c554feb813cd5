(** Specifications used in the statements about the in-memory backend.  They mention only the data
    types of Types.v and the observable contents of the store, none of the model's functions. *)
From Verif Require Import Base Chrono Types Query Memory.

(** The jobs in the store, in enqueue order. *)
Definition jobs_of (m : mem) : list job := map kj_job (m_jobs m).

(** A job is waiting to be run. *)
Definition waiting (j : job) : Prop := j_status j = Scheduled \/ j_status j = Retryable.

(** A job has finished. *)
Definition finished (j : job) : Prop :=
  j_status j = Complete \/ j_status j = Cancelled \/ j_status j = Discarded.

(** A job may be given to a worker of [executor] at clock reading [now]. *)
Definition due (now : time) (executor : string) (j : job) : Prop :=
  j_executor j = executor /\ waiting j /\ j_scheduled_at j - now < 100 * 1000 * 1000.

(** [a] is preferred to [b] by schedule and then priority. *)
Definition strictly_before (a b : job) : Prop :=
  j_scheduled_at a < j_scheduled_at b
  \/ (j_scheduled_at a = j_scheduled_at b /\ j_priority a < j_priority b).

(** What a job looks like after each operation: every field is listed, so these also say what does
    not change. *)

(** Handed to a worker at [now]. *)
Definition after_hand_out (now : time) (j : job) : job :=
  {| j_id := j_id j; j_status := Executing; j_executor := j_executor j;
     j_data := j_data j; j_metadata := j_metadata j; j_attempt := j_attempt j + 1;
     j_max_attempts := j_max_attempts j; j_priority := j_priority j; j_tags := j_tags j;
     j_errors := j_errors j; j_inserted_at := j_inserted_at j; j_scheduled_at := j_scheduled_at j;
     j_attempted_at := Some now; j_completed_at := j_completed_at j; j_cancelled_at := j_cancelled_at j;
     j_discarded_at := j_discarded_at j |}.

(** Reported complete at [now]. *)
Definition after_complete (now : time) (j : job) : job :=
  {| j_id := j_id j; j_status := Complete; j_executor := j_executor j;
     j_data := j_data j; j_metadata := j_metadata j; j_attempt := j_attempt j;
     j_max_attempts := j_max_attempts j; j_priority := j_priority j; j_tags := j_tags j;
     j_errors := j_errors j; j_inserted_at := j_inserted_at j; j_scheduled_at := j_scheduled_at j;
     j_attempted_at := j_attempted_at j; j_completed_at := Some now; j_cancelled_at := j_cancelled_at j;
     j_discarded_at := j_discarded_at j |}.

(** Reported failed at [now], to be retried at [t]. *)
Definition after_retryable (now t : time) (ty : error_type) (msg : string) (j : job) : job :=
  {| j_id := j_id j; j_status := Retryable; j_executor := j_executor j;
     j_data := j_data j; j_metadata := j_metadata j; j_attempt := j_attempt j;
     j_max_attempts := j_max_attempts j; j_priority := j_priority j; j_tags := j_tags j;
     j_errors := j_errors j ++ [mk_job_error (j_attempt j mod 65536) ty msg now]; j_inserted_at := j_inserted_at j; j_scheduled_at := t;
     j_attempted_at := j_attempted_at j; j_completed_at := j_completed_at j; j_cancelled_at := j_cancelled_at j;
     j_discarded_at := j_discarded_at j |}.

(** Reported failed for good at [now]. *)
Definition after_discarded (now : time) (ty : error_type) (msg : string) (j : job) : job :=
  {| j_id := j_id j; j_status := Discarded; j_executor := j_executor j;
     j_data := j_data j; j_metadata := j_metadata j; j_attempt := j_attempt j;
     j_max_attempts := j_max_attempts j; j_priority := j_priority j; j_tags := j_tags j;
     j_errors := j_errors j ++ [mk_job_error (j_attempt j mod 65536) ty msg now]; j_inserted_at := j_inserted_at j; j_scheduled_at := j_scheduled_at j;
     j_attempted_at := j_attempted_at j; j_completed_at := j_completed_at j; j_cancelled_at := j_cancelled_at j;
     j_discarded_at := Some now |}.

(** Cancelled at [now]. *)
Definition after_cancelled (now : time) (ty : error_type) (msg : string) (j : job) : job :=
  {| j_id := j_id j; j_status := Cancelled; j_executor := j_executor j;
     j_data := j_data j; j_metadata := j_metadata j; j_attempt := j_attempt j;
     j_max_attempts := j_max_attempts j; j_priority := j_priority j; j_tags := j_tags j;
     j_errors := j_errors j ++ [mk_job_error (j_attempt j mod 65536) ty msg now]; j_inserted_at := j_inserted_at j; j_scheduled_at := j_scheduled_at j;
     j_attempted_at := j_attempted_at j; j_completed_at := j_completed_at j; j_cancelled_at := Some now;
     j_discarded_at := j_discarded_at j |}.

(** Snoozed until [t]. *)
Definition after_snoozed (t : time) (j : job) : job :=
  {| j_id := j_id j; j_status := if Z.eq_dec (j_attempt j) 1 then Scheduled else Retryable; j_executor := j_executor j;
     j_data := j_data j; j_metadata := j_metadata j; j_attempt := j_attempt j - 1;
     j_max_attempts := j_max_attempts j; j_priority := j_priority j; j_tags := j_tags j;
     j_errors := j_errors j; j_inserted_at := j_inserted_at j; j_scheduled_at := t;
     j_attempted_at := j_attempted_at j; j_completed_at := j_completed_at j; j_cancelled_at := j_cancelled_at j;
     j_discarded_at := j_discarded_at j |}.

(** Rerun at [now]. *)
Definition after_rerun (now : time) (j : job) : job :=
  {| j_id := j_id j; j_status := if Z.eq_dec (j_attempt j) 1 then Scheduled else Retryable; j_executor := j_executor j;
     j_data := j_data j; j_metadata := j_metadata j; j_attempt := j_attempt j;
     j_max_attempts := j_max_attempts j + 1; j_priority := j_priority j; j_tags := j_tags j;
     j_errors := j_errors j; j_inserted_at := j_inserted_at j; j_scheduled_at := now;
     j_attempted_at := j_attempted_at j; j_completed_at := None; j_cancelled_at := None;
     j_discarded_at := None |}.

(** The job a request without uniqueness criteria turns into. *)
Definition new_job (now : time) (id : Z) (e : enqueuable) : job :=
  {| j_id := id; j_status := Scheduled; j_executor := eq_executor e;
     j_data := eq_data e; j_metadata := eq_metadata e; j_attempt := 0;
     j_max_attempts := eq_max_attempts e; j_priority := eq_priority e; j_tags := eq_tags e;
     j_errors := []; j_inserted_at := now; j_scheduled_at := eq_scheduled_at e;
     j_attempted_at := None; j_completed_at := None; j_cancelled_at := None;
     j_discarded_at := None |}.

(** The store [l'] is [l] with exactly one job, the first one with id [id], changed from [j] to
    [j']. *)
Definition changed_one (id : Z) (j j' : job) (l l' : list job) : Prop :=
  exists pre post,
    l = pre ++ j :: post /\ l' = pre ++ j' :: post
    /\ j_id j = id /\ (forall x, In x pre -> j_id x <> id).

(** Independent meaning of backend queries. *)
Inductive sat : query -> job -> Prop :=
| sat_not q j : unsat q j -> sat (QNot q) j
| sat_and qs j : (forall q, In q qs -> sat q j) -> sat (QAnd qs) j
| sat_or qs q j : In q qs -> sat q j -> sat (QOr qs) j
| sat_executor e j : j_executor j = e -> sat (QExecutorEqual e) j
| sat_data d j : j_data j = d -> sat (QDataEquals d) j
| sat_metadata d j : j_metadata j = d -> sat (QMetadataEquals d) j
| sat_id id j : j_id j = id -> sat (QIdEquals id) j
| sat_id_in ids j : In (j_id j) ids -> sat (QIdIn ids) j
| sat_status s j : j_status j = s -> sat (QStatusEqual s) j
| sat_tags_all ts j : incl ts (j_tags j) -> sat (QTagsAllOf ts) j
| sat_tags_one ts t j : In t ts -> In t (j_tags j) -> sat (QTagsOneOf ts) j
| sat_before t j : j_scheduled_at j < t -> sat (QScheduledAtBefore t) j
| sat_after t j : t < j_scheduled_at j -> sat (QScheduledAtAfter t) j
| sat_at t j : j_scheduled_at j = t -> sat (QScheduledAtEqual t) j
with unsat : query -> job -> Prop :=
| unsat_not q j : sat q j -> unsat (QNot q) j
| unsat_and qs q j : In q qs -> unsat q j -> unsat (QAnd qs) j
| unsat_or qs j : (forall q, In q qs -> unsat q j) -> unsat (QOr qs) j
| unsat_executor e j : j_executor j <> e -> unsat (QExecutorEqual e) j
| unsat_data d j : j_data j <> d -> unsat (QDataEquals d) j
| unsat_metadata d j : j_metadata j <> d -> unsat (QMetadataEquals d) j
| unsat_id id j : j_id j <> id -> unsat (QIdEquals id) j
| unsat_id_in ids j : ~ In (j_id j) ids -> unsat (QIdIn ids) j
| unsat_status s j : j_status j <> s -> unsat (QStatusEqual s) j
| unsat_tags_all ts j : ~ incl ts (j_tags j) -> unsat (QTagsAllOf ts) j
| unsat_tags_one ts j : (forall t, In t ts -> ~ In t (j_tags j)) -> unsat (QTagsOneOf ts) j
| unsat_before t j : t <= j_scheduled_at j -> unsat (QScheduledAtBefore t) j
| unsat_after t j : j_scheduled_at j <= t -> unsat (QScheduledAtAfter t) j
| unsat_at t j : j_scheduled_at j <> t -> unsat (QScheduledAtEqual t) j.

(** A job is in the scope of a prune specification. *)
Definition in_scope (ps : prune_spec) (j : job) : Prop :=
  j_status j = ps_status ps
  /\ match ps_executors ps with
     | Except l => ~ In (j_executor j) l
     | Only l => In (j_executor j) l
     end.

(** A stored job (with the key it was enqueued with) conflicts with a request at [now], as the
    in-memory backend decides it. *)
Definition conflicts_mem (now : time) (e : enqueuable) (k : kjob) : Prop :=
  exists uq, eq_criteria e = Some uq
    /\ uc_key uq = kj_key k
    /\ (uc_executor uq = true -> eq_executor e = j_executor (kj_job k))
    /\ In (j_status (kj_job k)) (uc_statuses uq)
    /\ (forall d, uc_duration uq = Some d ->
          - d < j_scheduled_at (kj_job k) - now < d).

(** The effect a conflict policy may have on the conflicting job. *)
Definition after_conflict (e : enqueuable) (j : job) : job :=
  match eq_criteria e with
  | Some uq =>
      match uc_on_conflict uq with
      | DoNothing => j
      | Replace r =>
          if in_dec (fun a b : status => ltac:(decide equality) : {a = b} + {a <> b})
                    (j_status j) (rp_for_statuses r)
          then {| j_id := j_id j; j_status := j_status j; j_executor := j_executor j;
                  j_data := if rp_data r then eq_data e else j_data j;
                  j_metadata := if rp_metadata r then eq_metadata e else j_metadata j;
                  j_attempt := j_attempt j;
                  j_max_attempts :=
                    if rp_max_attempts r then eq_max_attempts e else j_max_attempts j;
                  j_priority := if rp_priority r then eq_priority e else j_priority j;
                  j_tags := j_tags j; j_errors := j_errors j;
                  j_inserted_at := j_inserted_at j;
                  j_scheduled_at :=
                    if rp_scheduled_at r then eq_scheduled_at e else j_scheduled_at j;
                  j_attempted_at := j_attempted_at j; j_completed_at := j_completed_at j;
                  j_cancelled_at := j_cancelled_at j; j_discarded_at := j_discarded_at j |}
          else j
      end
  | None => j
  end.

(** Messages received by each subscription, with the executor it is for. *)
Definition inboxes (m : mem) : list (string * list time) :=
  map (fun s => (sub_executor s, sub_queue s)) (m_subs m).

(** One message [t] delivered to every subscription of [executor], none to the others. *)
Definition delivered (executor : string) (t : time)
  (before after : list (string * list time)) : Prop :=
  Forall2 (fun b a => fst a = fst b
             /\ (fst b = executor -> snd a = snd b ++ [t])
             /\ (fst b <> executor -> snd a = snd b)) before after.

(** * Histories *)

(** What happened at one operation: clock reading, operation, observed result. *)
Definition event : Type := time * mop * mres.

(** The observable trace of a history. *)
Fixpoint mem_trace (p : profile) (m : mem) (h : list (time * mop)) : list event :=
  match h with
  | [] => []
  | (now, o) :: h' =>
      let (m', r) := mem_step p now m o in (now, o, r) :: mem_trace p m' h'
  end.

(** Number of enqueue operations in a history (each draws at most one id). *)
Definition is_enqueue (x : time * mop) : bool :=
  match snd x with OpEnqueue _ => true | _ => false end.
Definition enqueues (h : list (time * mop)) : Z := Z.of_nat (length (filter is_enqueue h)).

(** [m] is the state after history [h] from the empty backend, within the range of job ids. *)
Definition reached (p : profile) (h : list (time * mop)) (m : mem) : Prop :=
  m = mem_run p mem_init h /\ enqueues h <= 4294967296.

(** No explicit update of a job in the history. *)
Definition no_updates (h : list (time * mop)) : Prop :=
  forall now j, ~ In (now, OpUpdate j) h.

(** The event hands out the job with id [id]. *)
Definition hands_out (id : Z) (ev : event) : bool :=
  match ev with
  | (_, OpLoad _, RJob (Ok (Some j))) => j_id j =? id
  | _ => false
  end.
(** The event is a successful snooze of the job with id [id]. *)
Definition snoozes (id : Z) (ev : event) : bool :=
  match ev with
  | (_, OpSnoozed i _, RUnit (Ok _)) => i =? id
  | _ => false
  end.
Definition count (f : event -> bool) (tr : list event) : Z := Z.of_nat (length (filter f tr)).

(** The attempt number and error list a job must have, computed from the trace alone: one attempt
    per hand-out, one less per snooze, one error entry per failure report. *)
Definition ledger_step (id : Z) (st : Z * list job_error) (ev : event) : Z * list job_error :=
  let (attempt, errors) := st in
  match ev with
  | (now, OpLoad _, RJob (Ok (Some j))) =>
      if Z.eq_dec (j_id j) id then (attempt + 1, errors) else st
  | (now, OpSnoozed i _, RUnit (Ok _)) => if Z.eq_dec i id then (attempt - 1, errors) else st
  | (now, OpRetryable i _ e, RUnit (Ok _)) | (now, OpDiscarded i e, RUnit (Ok _))
  | (now, OpCancelled i e, RUnit (Ok _)) =>
      if Z.eq_dec i id
      then (attempt, errors ++ [mk_job_error (attempt mod 65536) (ee_type e) (ee_message e) now])
      else st
  | _ => st
  end.
Definition ledger (id : Z) (tr : list event) : Z * list job_error :=
  fold_left (ledger_step id) tr (0, []).

(** The operation names the job with id [id] (status report, rerun, update). *)
Definition concerns (id : Z) (o : mop) : Prop :=
  match o with
  | OpComplete i | OpRetryable i _ _ | OpDiscarded i _ | OpCancelled i _ | OpSnoozed i _
  | OpRerun i => i = id
  | OpUpdate j => j_id j = id
  | _ => False
  end.

(** The operation can make a job with id [id] available again. *)
Definition releases (id : Z) (o : mop) : Prop :=
  match o with
  | OpRetryable i _ _ | OpSnoozed i _ | OpRerun i => i = id
  | OpUpdate j => j_id j = id
  | _ => False
  end.

(** The operation is a prune whose scope contains [j]. *)
Definition prunes (j : job) (o : mop) : Prop :=
  match o with OpPrune ps => in_scope ps j | _ => False end.

(** The operation is an enqueue with a replacing conflict policy. *)
Definition replacing_enqueue (o : mop) : Prop :=
  match o with
  | OpEnqueue e => exists uq r, eq_criteria e = Some uq /\ uc_on_conflict uq = Replace r
  | _ => False
  end.

(** [l'] is [l] without some elements satisfying [P]. *)
Inductive retained {A} (P : A -> Prop) : list A -> list A -> Prop :=
| ret_nil : retained P [] []
| ret_keep x l l' : retained P l l' -> retained P (x :: l) (x :: l')
| ret_drop x l l' : P x -> retained P l l' -> retained P (x :: l) l'.

(** * Waiting in line *)

Definition waitingb (j : job) : bool :=
  match j_status j with Scheduled | Retryable => true | _ => false end.

(** [a] is preferred to [b] by schedule and then priority (boolean form of [strictly_before]). *)
Definition earlier (a b : job) : bool :=
  (j_scheduled_at a <? j_scheduled_at b)
  || ((j_scheduled_at a =? j_scheduled_at b) && (j_priority a <? j_priority b)).

(** Number of waiting jobs of the same executor that sort before [j], where [pre] are the jobs
    enqueued before it and [post] those enqueued after it. *)
Definition ahead (pre : list job) (j : job) (post : list job) : nat :=
  length (filter (fun x => waitingb x && String.eqb (j_executor x) (j_executor j)
                           && negb (earlier j x)) pre)
  + length (filter (fun x => waitingb x && String.eqb (j_executor x) (j_executor j)
                             && earlier x j) post).

(** The operation does not name [j] and puts no job in line before it. *)
Definition lets_by (j : job) (now : time) (o : mop) : Prop :=
  match o with
  | OpLoad _ | OpQuery _ | OpSubscribe _ | OpNotifyAll | OpPause => True
  | OpComplete i | OpDiscarded i _ | OpCancelled i _ => i <> j_id j
  | OpRetryable i t _ | OpSnoozed i t => i <> j_id j /\ j_scheduled_at j < t
  | OpRerun i => i <> j_id j /\ j_scheduled_at j < now
  | OpUpdate j' => j_id j' <> j_id j /\ j_scheduled_at j < j_scheduled_at j'
  | OpPrune ps => ~ in_scope ps j
  | OpEnqueue e =>
      eq_criteria e = None
      /\ (j_scheduled_at j < eq_scheduled_at e
          \/ (j_scheduled_at j = eq_scheduled_at e /\ j_priority j <= eq_priority e))
  end.

(** The operation asks for a job of executor [ex]. *)
Definition asks (ex : string) (x : time * mop) : bool :=
  match snd x with OpLoad ex' => String.eqb ex' ex | _ => false end.

(** * Well-behaved arguments *)

(** The ages of a prune can be added to and subtracted from the current time. *)
Definition age_fits (now : time) (o : mop) : Prop :=
  match o with
  | OpPrune ps =>
      match ps_by ps with
      | MaxAge d => dt_min <= now - d <= dt_max /\ dt_min <= now + d <= dt_max
      | MaxLength _ => True
      end
  | _ => True
  end.

(** Counters in the range of the typed API ([u16]). *)
Definition counters_fit (o : mop) : Prop :=
  match o with
  | OpEnqueue e => 0 <= eq_max_attempts e <= 65535
  | OpUpdate j => 0 <= j_attempt j <= 65535 /\ 0 <= j_max_attempts j <= 65535
  | _ => True
  end.

(** The backend as a whole has stopped working: the error every caller gets from then on. *)
Definition broken_result (r : mres) : Prop :=
  r = RId (Err BadState) \/ r = RUnit (Err BadState) \/ r = RJobs (Err BadState) \/ r = RJob Panic
  \/ r = RUnit Panic \/ r = RId Panic \/ r = RJobs Panic \/ r = RJob (Err BadState).

(** Operations that read or write jobs. *)
Definition on_jobs (o : mop) : Prop :=
  match o with OpSubscribe _ | OpNotifyAll | OpPause => False | _ => True end.

(** * Single operations *)

(** For a status report or rerun: the job it names and what it does to it. *)
Definition report_effect (now : time) (o : mop) : option (Z * (job -> job)) :=
  match o with
  | OpComplete id => Some (id, after_complete now)
  | OpRetryable id t e => Some (id, after_retryable now t (ee_type e) (ee_message e))
  | OpDiscarded id e => Some (id, after_discarded now (ee_type e) (ee_message e))
  | OpCancelled id e => Some (id, after_cancelled now (ee_type e) (ee_message e))
  | OpSnoozed id t => Some (id, after_snoozed t)
  | OpRerun id => Some (id, after_rerun now)
  | _ => None
  end.

(** [l'] is [l] without exactly the elements satisfying [P]. *)
Definition exactly_removed {A} (P : A -> Prop) (l l' : list A) : Prop :=
  retained P l l' /\ forall x, In x l' -> ~ P x.

(** Counters are far enough from the ends of [i32] for one more increment or decrement. *)
Definition counters_in_range (m : mem) : Prop :=
  forall j, In j (jobs_of m) ->
    -2147483648 < j_attempt j < 2147483647 /\ -2147483648 < j_max_attempts j < 2147483647.
