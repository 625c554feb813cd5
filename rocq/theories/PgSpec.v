(** Vocabulary for the properties of the Postgres backend.  Nothing here uses the backend's model
    functions; rows and tokens are data. *)
From Coq Require Import Ascii Permutation Sorted.
From Verif Require Import Base Chrono Types Query Memory MemSpec PgRow Pg.

(** * What a row says *)

Inductive spelled : status -> string -> Prop :=
| sp_complete : spelled Complete "complete"
| sp_executing : spelled Executing "executing"
| sp_scheduled : spelled Scheduled "scheduled"
| sp_retryable : spelled Retryable "retryable"
| sp_cancelled : spelled Cancelled "cancelled"
| sp_discarded : spelled Discarded "discarded".

Inductive worded : error_type -> string -> Prop :=
| wo_panic : worded EPanic "panic"
| wo_timeout : worded ETimeout "timeout"
| wo_cancelled : worded ECancelled "cancelled"
| wo_other s : s <> "panic"%string -> s <> "timeout"%string -> s <> "cancelled"%string -> worded (EOther s) s.

Definition tells (se : stored_error) (je : job_error) : Prop :=
  0 <= se_attempt se <= 65535 /\ je_attempt je = se_attempt se /\ worded (je_type je) (se_type se)
  /\ je_details je = se_details se /\ je_recorded_at je = se_recorded_at se.

(** The row is the job. *)
Definition represents (r : row) (j : job) : Prop :=
  r_id r = j_id j /\ spelled (j_status j) (r_status r) /\ r_executor r = j_executor j
  /\ r_data r = j_data j /\ r_metadata r = j_metadata j /\ r_attempt r = j_attempt j
  /\ r_max_attempts r = j_max_attempts j /\ r_priority r = j_priority j /\ r_tags r = j_tags j
  /\ Forall2 tells (r_errors r) (j_errors j) /\ r_inserted_at r = j_inserted_at j
  /\ r_scheduled_at r = j_scheduled_at j /\ r_attempted_at r = j_attempted_at j
  /\ r_completed_at r = j_completed_at j /\ r_cancelled_at r = j_cancelled_at j
  /\ r_discarded_at r = j_discarded_at j.
(** The table holds these jobs. *)
Definition holds_jobs (t : tbl) (js : list job) : Prop := Forall2 represents (t_rows t) js.

(** * Values the database keeps as they are *)

Definition clean (s : string) : Prop := forall n, String.get n s <> Some Ascii.zero.
Fixpoint clean_json (v : json) : Prop :=
  match v with
  | JNull | JBool _ | JNum _ => True
  | JStr s => clean s
  | JArr l => (fix all l := match l with [] => True | v' :: l' => clean_json v' /\ all l' end) l
  | JObj l =>
      (fix all l := match l with [] => True | (k, v') :: l' => clean k /\ clean_json v' /\ all l' end) l
  end.
(** Whole microseconds, not before 4714 BC. *)
Definition kept_time (t : time) : Prop := (exists k, t = k * 1000) /\ -210866803200000000000 <= t.

Definition kept_request (e : enqueuable) : Prop :=
  clean (eq_executor e) /\ clean_json (eq_data e) /\ clean_json (eq_metadata e)
  /\ kept_time (eq_scheduled_at e) /\ Forall clean (eq_tags e).
Definition kept_error (e : exec_error) : Prop :=
  clean (ee_message e) /\ exists s, worded (ee_type e) s /\ clean s.
Definition kept_report (o : mop) : Prop :=
  match o with
  | OpRetryable _ t e => kept_time t /\ kept_error e
  | OpDiscarded _ e | OpCancelled _ e => kept_error e
  | OpSnoozed _ t => kept_time t
  | _ => True
  end.
(** The operation adds an error to the job. *)
Definition adds_error (o : mop) : bool :=
  match o with OpRetryable _ _ _ | OpDiscarded _ _ | OpCancelled _ _ => true | _ => false end.

(** * Queries *)

(** Where a query stands: anywhere, inside a conjunction, under a negation. *)
Inductive place := Anywhere | Conjunct | Negated.

(** The queries whose generated text, which has no parentheses, is grouped the way they are
    nested: no disjunction inside a conjunction, neither under a negation, none of them empty, and
    at most one id to choose from. *)
Inductive plain : place -> query -> Prop :=
| pl_not p q : plain Negated q -> plain p (QNot q)
| pl_and_one p q : plain p q -> plain p (QAnd [q])
| pl_or_one p q : plain p q -> plain p (QOr [q])
| pl_and p qs : p <> Negated -> qs <> [] -> (forall q, In q qs -> plain Conjunct q) -> plain p (QAnd qs)
| pl_or qs : qs <> [] -> (forall q, In q qs -> plain Anywhere q) -> plain Anywhere (QOr qs)
| pl_executor p e : clean e -> plain p (QExecutorEqual e)
| pl_data p v : clean_json v -> plain p (QDataEquals v)
| pl_metadata p v : clean_json v -> plain p (QMetadataEquals v)
| pl_id p id : plain p (QIdEquals id)
| pl_id_in p id : plain p (QIdIn [id])
| pl_status p s : plain p (QStatusEqual s)
| pl_tags_all p ts : Forall clean ts -> plain p (QTagsAllOf ts)
| pl_tags_one p ts : Forall clean ts -> plain p (QTagsOneOf ts)
| pl_before p t : kept_time t -> plain p (QScheduledAtBefore t)
| pl_after p t : kept_time t -> plain p (QScheduledAtAfter t)
| pl_at p t : kept_time t -> plain p (QScheduledAtEqual t).

(** Latest insertion first. *)
Definition newest_first (l : list job) : Prop := StronglySorted (fun a b => j_inserted_at b <= j_inserted_at a) l.

(** * Hand-out, uniqueness, update, pruning *)

(** [a] is preferred to [b] by priority and then schedule. *)
Definition pg_before (a b : job) : Prop :=
  j_priority a < j_priority b \/ (j_priority a = j_priority b /\ j_scheduled_at a < j_scheduled_at b).

(** The row conflicts with a request, as the Postgres backend decides it: by the stored uniqueness
    key, which is not the key of the criteria it was enqueued with but the identifier computed from
    it, and within the duration of the new job's schedule. *)
Definition conflicts_pg (e : enqueuable) (r : row) (j : job) : Prop :=
  exists uq, eq_criteria e = Some uq
    /\ (forall k, uc_key uq = Some k -> r_uniqueness_key r = Some k)
    /\ (uc_executor uq = true -> eq_executor e = j_executor j)
    /\ In (j_status j) (uc_statuses uq)
    /\ (forall d, uc_duration uq = Some d -> eq_scheduled_at e - d <= j_scheduled_at j <= eq_scheduled_at e + d).
(** The cut-offs of a request's duration are dates, and ones the database keeps. *)
Definition kept_window (e : enqueuable) : Prop :=
  forall uq d, eq_criteria e = Some uq -> uc_duration uq = Some d ->
    kept_time (eq_scheduled_at e - d) /\ kept_time (eq_scheduled_at e + d)
    /\ dt_min <= eq_scheduled_at e - d <= dt_max /\ dt_min <= eq_scheduled_at e + d <= dt_max.
(** The replacement changes at least one field. *)
Definition replaces_something (e : enqueuable) : Prop :=
  forall uq r, eq_criteria e = Some uq -> uc_on_conflict uq = Replace r ->
    rp_scheduled_at r = true \/ rp_data r = true \/ rp_metadata r = true \/ rp_priority r = true
    \/ rp_max_attempts r = true.

(** [j] with the editable fields of [j']. *)
Definition edited (j' j : job) : job :=
  {| j_id := j_id j; j_status := j_status j; j_executor := j_executor j;
     j_data := j_data j'; j_metadata := j_metadata j'; j_attempt := j_attempt j;
     j_max_attempts := j_max_attempts j'; j_priority := j_priority j'; j_tags := j_tags j';
     j_errors := j_errors j; j_inserted_at := j_inserted_at j; j_scheduled_at := j_scheduled_at j';
     j_attempted_at := j_attempted_at j; j_completed_at := j_completed_at j; j_cancelled_at := j_cancelled_at j;
     j_discarded_at := j_discarded_at j |}.
Definition kept_job (j : job) : Prop :=
  clean_json (j_data j) /\ clean_json (j_metadata j) /\ Forall clean (j_tags j) /\ kept_time (j_scheduled_at j).

(** The executors a prune names can be given to the database. *)
Definition clean_spec (ps : prune_spec) : Prop :=
  match ps_executors ps with Except l | Only l => Forall clean l end.
(** A job stands before another in the order in which a prune by length keeps them: finished jobs
    newest first, the others soonest first. *)
Definition kept_before (s : status) (a b : job) : Prop :=
  match s with
  | Complete | Cancelled | Discarded => j_scheduled_at b <= j_scheduled_at a
  | Scheduled | Retryable | Executing => j_scheduled_at a <= j_scheduled_at b
  end.
(** The job is too old (finished statuses) or too far ahead (the others). *)
Definition beyond_age (now : time) (d : delta) (s : status) (j : job) : Prop :=
  match s with
  | Complete | Cancelled | Discarded => j_scheduled_at j < now - d
  | Scheduled | Retryable | Executing => now + d < j_scheduled_at j
  end.
(** The cut-off of a prune by age is a date, and one the database keeps. *)
Definition kept_cutoff (now : time) (ps : prune_spec) : Prop :=
  match ps_by ps, ps_status ps with
  | MaxLength _, _ => True
  | MaxAge d, (Complete | Cancelled | Discarded) => kept_time (now - d) /\ dt_min <= now - d <= dt_max
  | MaxAge d, (Scheduled | Retryable | Executing) => kept_time (now + d) /\ dt_min <= now + d <= dt_max
  end.
(** [js'] is what is left of [js] when the jobs [gone] are taken out of it. *)
Inductive without {A} : list A -> list A -> list A -> Prop :=
| wi_nil : without [] [] []
| wi_keep x l gone l' : without l gone l' -> without (x :: l) gone (x :: l')
| wi_drop x l gone l' : without l gone l' -> without (x :: l) (x :: gone) l'.

(** * Histories *)

(** The observable trace of a history. *)
Fixpoint pg_trace (ident : option Z -> option string -> list status -> Z) (t : tbl) (h : list (time * mop)) : list event :=
  match h with
  | [] => []
  | (now, o) :: h' => let (t', r) := pg_step ident now t o in (now, o, r) :: pg_trace ident t' h'
  end.

(** An operation did not succeed. *)
Definition failed (r : mres) : Prop :=
  match r with
  | RUnit (Ok _) | RId (Ok _) | RJob (Ok _) | RJobs (Ok _) => False
  | _ => True
  end.

(** Errors are only reported for a job whose attempt number fits the 16 bits it is read back into. *)
Fixpoint attempts_fit (ident : option Z -> option string -> list status -> Z) (t : tbl) (h : list (time * mop)) : Prop :=
  match h with
  | [] => True
  | (now, o) :: h' =>
      (adds_error o = true -> forall r, In r (t_rows t) -> concerns (r_id r) o -> 0 <= r_attempt r <= 65535)
      /\ attempts_fit ident (fst (pg_step ident now t o)) h'
  end.

(** What the trace says about a job: attempts made, and for each error the attempt and message. *)
Definition notes_step (id : Z) (st : Z * list (Z * string)) (ev : event) : Z * list (Z * string) :=
  let (attempt, notes) := st in
  match ev with
  | (_, OpLoad _, RJob (Ok (Some j))) => if Z.eq_dec (j_id j) id then (attempt + 1, notes) else st
  | (_, OpSnoozed i _, RUnit (Ok _)) => if Z.eq_dec i id then (attempt - 1, notes) else st
  | (_, OpRetryable i _ e, RUnit (Ok _)) | (_, OpDiscarded i e, RUnit (Ok _)) | (_, OpCancelled i e, RUnit (Ok _)) =>
      if Z.eq_dec i id then (attempt, notes ++ [(attempt, ee_message e)]) else st
  | _ => st
  end.
Definition notes (id : Z) (tr : list event) : Z * list (Z * string) := fold_left (notes_step id) tr (0, []).
