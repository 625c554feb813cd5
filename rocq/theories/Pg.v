(** The Postgres backend, rexecutor-sqlx/src/backend.rs and src/lib.rs, one definition per Rust
    function, each run without interference (PgConc.v has overlapping transactions).

    Simplifications, all local to this file:
    - the server is reachable and answers every statement; its errors ([sqlx::Error::Database] and
      encoding errors) are [BadState] by [map_err], src/lib.rs 45-55;
    - one clock reading [now] per operation, for client and server; sessions use UTC, as sqlx sets
      them up;
    - a table is the list of its rows in the order a scan meets them; theorems quantify over all
      tables, hence over all such orders;
    - the subquery of [load_job_mark_as_executing_for_executor] is evaluated once. *)
From Verif Require Import Base Chrono Types Query Memory PgRow PgQuery.

(** The table and the next value of the sequence behind [id SERIAL], add-job-table.up.sql 17. *)
Record tbl := mk_tbl { t_rows : list row; t_next : Z }.
Definition tbl_init : tbl := mk_tbl [] 1.

(** [UPDATE ... WHERE id = $1]: [f] is the SET list, [None] its run-time error; the number of rows
    affected. *)
Fixpoint update_rows (id : Z) (f : row -> option row) (l : list row) : option (list row * Z) :=
  match l with
  | [] => Some ([], 0)
  | r :: l' =>
      match update_rows id f l' with
      | None => None
      | Some (l2, n) =>
          if r_id r =? id
          then match f r with Some r' => Some (r' :: l2, n + 1) | None => None end
          else Some (r :: l2, n)
      end
  end.

(** src/backend.rs 19-26: [handle_update], with the statement it is about; [ok] says whether the
    parameters are accepted. *)
Definition pg_update_by_id (ok : bool) (id : Z) (f : row -> option row) (t : tbl) : tbl * result unit :=
  if negb ok then (t, Err BadState)
  else match update_rows id f (t_rows t) with
       | None => (t, Err BadState)
       | Some (l, n) =>
           (mk_tbl l (t_next t),
            if n =? 0 then Err (JobNotFound id) else if n =? 1 then Ok tt else Err BadState)
       end.

(** Integer columns are [int4]: results out of range are errors. *)
Definition int4 (z : Z) : option Z := if in_i32 z then Some z else None.

(** A bound time is accepted. *)
Definition time_ok (t : time) : bool := match bind_time t with Some _ => true | None => false end.

(** src/lib.rs 275-287: [_mark_job_complete]. *)
Definition pg_complete (now : time) (id : Z) (t : tbl) : tbl * result unit :=
  pg_update_by_id true id
    (fun r => Some (put_status "complete" (put_completed_at (Some (pg_time now)) r))) t.

(** The object appended to [errors], src/lib.rs 297-305. *)
Definition pg_error (now : time) (e : exec_error) (r : row) : stored_error :=
  mk_stored_error (r_attempt r) (error_text (ee_type e)) (ee_message e) (pg_time now).
(** The parameters of an error, src/lib.rs 309-310. *)
Definition pg_error_ok (e : exec_error) : bool := storable (error_text (ee_type e)) && storable (ee_message e).

(** src/lib.rs 289-318: [_mark_job_retryable]. *)
Definition pg_retryable (now : time) (id : Z) (at_ : time) (e : exec_error) (t : tbl) : tbl * result unit :=
  pg_update_by_id (pg_error_ok e && time_ok at_) id
    (fun r => Some (put_status "retryable" (put_scheduled_at (pg_time at_)
                     (put_errors (r_errors r ++ [pg_error now e r]) r)))) t.

(** src/lib.rs 320-338: [_mark_job_snoozed]. *)
Definition pg_snoozed (id : Z) (at_ : time) (t : tbl) : tbl * result unit :=
  pg_update_by_id (time_ok at_) id
    (fun r => match int4 (r_attempt r - 1) with
              | None => None
              | Some a =>
                  Some (put_status (if r_attempt r =? 1 then "scheduled" else "retryable")
                         (put_scheduled_at (pg_time at_) (put_attempt a r)))
              end) t.

(** src/lib.rs 340-363: [_mark_job_discarded]. *)
Definition pg_discarded (now : time) (id : Z) (e : exec_error) (t : tbl) : tbl * result unit :=
  pg_update_by_id (pg_error_ok e) id
    (fun r => Some (put_status "discarded" (put_discarded_at (Some (pg_time now))
                     (put_errors (r_errors r ++ [pg_error now e r]) r)))) t.

(** src/lib.rs 365-388: [_mark_job_cancelled]. *)
Definition pg_cancelled (now : time) (id : Z) (e : exec_error) (t : tbl) : tbl * result unit :=
  pg_update_by_id (pg_error_ok e) id
    (fun r => Some (put_status "cancelled" (put_cancelled_at (Some (pg_time now))
                     (put_errors (r_errors r ++ [pg_error now e r]) r)))) t.

(** src/lib.rs 419-437: [rerun]. *)
Definition pg_rerun (now : time) (id : Z) (t : tbl) : tbl * result unit :=
  pg_update_by_id (time_ok now) id
    (fun r => match int4 (r_max_attempts r + 1) with
              | None => None
              | Some a =>
                  Some (put_status (if r_attempt r =? 1 then "scheduled" else "retryable")
                         (put_scheduled_at (pg_time now) (put_completed_at None (put_cancelled_at None
                           (put_discarded_at None (put_max_attempts a r))))))
              end) t.

(** src/lib.rs 439-461: [update]. *)
Definition pg_update (j : job) (t : tbl) : tbl * result unit :=
  pg_update_by_id
    (json_storable (j_data j) && json_storable (j_metadata j) && forallb storable (j_tags j)
     && time_ok (j_scheduled_at j)) (j_id j)
    (fun r => Some (put_data (j_data j) (put_metadata (j_metadata j) (put_max_attempts (j_max_attempts j)
                     (put_scheduled_at (pg_time (j_scheduled_at j)) (put_priority (j_priority j)
                       (put_tags (j_tags j) r))))))) t.

(** src/lib.rs 115-157: the condition of [load_job_mark_as_executing_for_executor]. *)
Definition pg_ready (now : time) (executor : string) (r : row) : bool :=
  (dt_diff (r_scheduled_at r) (pg_time now) <? 100 * ns_per_ms)
  && (String.eqb (r_status r) "scheduled" || String.eqb (r_status r) "retryable")
  && String.eqb (r_executor r) executor.
(** [ORDER BY priority, scheduled_at], src/lib.rs 132. *)
Definition pg_leb (a b : row) : bool :=
  match Z.compare (r_priority a) (r_priority b) with
  | Lt => true
  | Gt => false
  | Eq => r_scheduled_at a <=? r_scheduled_at b
  end.
(** The SET list, src/lib.rs 123-126; [None] is integer overflow. *)
Definition pg_take (now : time) (r : row) : option row :=
  match int4 (r_attempt r + 1) with
  | None => None
  | Some a => Some (put_status "executing" (put_attempted_at (Some (pg_time now)) (put_attempt a r)))
  end.
(** src/lib.rs 115-157 followed by the conversion at src/stream.rs 31-39. *)
Definition pg_load (now : time) (executor : string) (t : tbl) : tbl * result (option job) :=
  if negb (storable executor) then (t, Err BadState)
  else match stable_sort pg_leb (filter (pg_ready now executor) (t_rows t)) with
       | [] => (t, Ok None)
       | r :: _ =>
           match update_rows (r_id r) (pg_take now) (t_rows t), pg_take now r with
           | Some (l, _), Some r' =>
               (mk_tbl l (t_next t),
                match job_of_row r' with Ok j => Ok (Some j) | Err e => Err e | Panic => Panic end)
           | _, _ => (t, Err BadState)
           end
       end.

(** src/lib.rs 390-407: [next_available_job_scheduled_at_for_executor]. *)
Definition pg_next_available (executor : string) (t : tbl) : result (option time) :=
  if negb (storable executor) then Err BadState
  else Ok (min_time (map r_scheduled_at
         (filter (fun r => (String.eqb (r_status r) "scheduled" || String.eqb (r_status r) "retryable")
                           && String.eqb (r_executor r) executor) (t_rows t)))).

(** The parameters of an insert, src/lib.rs 170-176. *)
Definition pg_request_ok (e : enqueuable) : bool :=
  storable (eq_executor e) && json_storable (eq_data e) && json_storable (eq_metadata e)
  && time_ok (eq_scheduled_at e) && forallb storable (eq_tags e).

(** The row inserted at src/lib.rs 160-178 ([key] is null) and 203-227. *)
Definition new_row (now : time) (id : Z) (key : option Z) (e : enqueuable) : row :=
  {| r_id := id; r_status := "scheduled"; r_executor := eq_executor e; r_data := eq_data e; r_errors := [];
     r_attempt := 0; r_max_attempts := eq_max_attempts e; r_tags := eq_tags e; r_metadata := eq_metadata e;
     r_priority := eq_priority e; r_uniqueness_key := key; r_inserted_at := pg_time now;
     r_scheduled_at := pg_time (eq_scheduled_at e); r_attempted_at := None; r_completed_at := None;
     r_cancelled_at := None; r_discarded_at := None |}.

(** src/lib.rs 159-183: [insert_job], and the same statement with a key in 203-229.  The sequence of
    an [int4] column ends at its maximum. *)
Definition pg_insert (now : time) (key : option Z) (e : enqueuable) (t : tbl) : tbl * result Z :=
  if negb (pg_request_ok e) then (t, Err BadState)
  else if 2147483647 <? t_next t then (t, Err BadState)
  else (mk_tbl (t_rows t ++ [new_row now (t_next t) key e]) (t_next t + 1), Ok (t_next t)).

(** src/unique.rs 29-63: the condition on a row; a null key equals nothing.  [lo] and [hi] are the
    two cut-offs. *)
Definition pg_conflict (uq : criteria) (executor : string) (window : option (time * time)) (r : row) : bool :=
  existsb (String.eqb (r_status r)) (map label (uc_statuses uq))
  && match uc_key uq with
     | None => true
     | Some k => match r_uniqueness_key r with Some k' => k' =? k | None => false end
     end
  && (negb (uc_executor uq) || String.eqb (r_executor r) executor)
  && match window with
     | None => true
     | Some (lo, hi) => (pg_time lo <=? r_scheduled_at r) && (r_scheduled_at r <=? pg_time hi)
     end.

(** src/unique.rs 53-58: the cut-offs; [None] is chrono's panic. *)
Definition pg_window (uq : criteria) (scheduled_at : time) : option (option (time * time)) :=
  match uc_duration uq with
  | None => Some None
  | Some d =>
      match dt_sub scheduled_at d, dt_add scheduled_at d with
      | Some lo, Some hi => Some (Some (lo, hi))
      | _, _ => None
      end
  end.
(** The parameters of that query, src/unique.rs 36-59. *)
Definition pg_window_ok (uq : criteria) (executor : string) (window : option (time * time)) : bool :=
  (negb (uc_executor uq) || storable executor)
  && match window with None => true | Some (lo, hi) => time_ok lo && time_ok hi end.

(** src/lib.rs 239-262: the SET list of a replacement, with the acceptance of each parameter. *)
Definition pg_assignments (r : replace_spec) (e : enqueuable) : list (bool * (row -> row)) :=
  (if rp_scheduled_at r then [(time_ok (eq_scheduled_at e), put_scheduled_at (pg_time (eq_scheduled_at e)))] else [])
  ++ (if rp_data r then [(json_storable (eq_data e), put_data (eq_data e))] else [])
  ++ (if rp_metadata r then [(json_storable (eq_metadata e), put_metadata (eq_metadata e))] else [])
  ++ (if rp_priority r then [(true, put_priority (eq_priority e))] else [])
  ++ (if rp_max_attempts r then [(true, put_max_attempts (eq_max_attempts e))] else []).
(** Running it: an empty SET list is a syntax error. *)
Definition pg_replace (r : replace_spec) (e : enqueuable) (id : Z) (t : tbl) : option tbl :=
  match pg_assignments r e with
  | [] => None
  | l =>
      if forallb fst l
      then match update_rows id (fun r0 => Some (fold_left (fun r1 a => snd a r1) l r0)) (t_rows t) with
           | Some (rows, _) => Some (mk_tbl rows (t_next t))
           | None => None
           end
      else None
  end.

Section Unique.
  (** [unique_identifier], src/unique.rs 19-27: any function of what is hashed. *)
  Variable ident : option Z -> option string -> list status -> Z.

  (** The identifier of a request's criteria. *)
  Definition request_ident (uq : criteria) (e : enqueuable) : Z :=
    ident (uc_key uq) (if uc_executor uq then Some (eq_executor e) else None) (uc_statuses uq).

  (** src/lib.rs 233-271: the [Some] branch for the conflicting row [r]; [None] is a database error,
      which rolls back. *)
  Definition pg_resolve (uq : criteria) (e : enqueuable) (r : row) (t : tbl) : option tbl :=
    match uc_on_conflict uq with
    | Replace rp =>
        if existsb (fun s => String.eqb (label s) (r_status r)) (rp_for_statuses rp)
        then pg_replace rp e (r_id r) t
        else Some t
    | DoNothing => Some t
    end.

  (** src/lib.rs 185-273: [insert_unique_job]. *)
  Definition pg_insert_unique (now : time) (uq : criteria) (e : enqueuable) (t : tbl) : tbl * result Z :=
    match pg_window uq (eq_scheduled_at e) with
    | None => (t, Panic)
    | Some window =>
        if negb (pg_window_ok uq (eq_executor e) window) then (t, Err BadState)
        else match find (pg_conflict uq (eq_executor e) window) (t_rows t) with
             | None => pg_insert now (Some (request_ident uq e)) e t
             | Some r =>
                 match pg_resolve uq e r t with
                 | Some t' => (t', Ok (r_id r))
                 | None => (t, Err BadState)
                 end
             end
    end.

  (** src/backend.rs 55-62: [enqueue]. *)
  Definition pg_enqueue (now : time) (e : enqueuable) (t : tbl) : tbl * result Z :=
    match eq_criteria e with
    | Some uq => pg_insert_unique now uq e t
    | None => pg_insert now None e t
    end.
End Unique.

(** src/query.rs 12-31: the scope of [PruneSpec::query]. *)
Definition pg_in_scope (ps : prune_spec) (r : row) : bool :=
  String.eqb (r_status r) (label (ps_status ps))
  && match ps_executors ps with
     | Except l => forallb (fun e => negb (String.eqb (r_executor r) e)) l
     | Only l => existsb (String.eqb (r_executor r)) l
     end.
(** src/query.rs 32-35: [in_past]. *)
Definition in_past (s : status) : bool :=
  match s with
  | Scheduled | Retryable | Executing => false
  | Complete | Cancelled | Discarded => true
  end.
(** src/query.rs 36-56: the ids selected for deletion; [None] is chrono's panic, [Some None] a
    parameter the server does not accept. *)
Definition pg_doomed (now : time) (ps : prune_spec) (rows : list row) : option (option (list Z)) :=
  let scope := filter (pg_in_scope ps) rows in
  match ps_by ps with
  | MaxAge d =>
      if in_past (ps_status ps)
      then match dt_sub now d with
           | None => None
           | Some c =>
               Some (if time_ok c
                     then Some (map r_id (filter (fun r => r_scheduled_at r <? pg_time c) scope)) else None)
           end
      else match dt_add now d with
           | None => None
           | Some c =>
               Some (if time_ok c
                     then Some (map r_id (filter (fun r => pg_time c <? r_scheduled_at r) scope)) else None)
           end
  | MaxLength n =>
      let leb := if in_past (ps_status ps)
                 then fun a b => r_scheduled_at b <=? r_scheduled_at a
                 else fun a b => r_scheduled_at a <=? r_scheduled_at b in
      Some (Some (map r_id (skipn (Z.to_nat n) (stable_sort leb scope))))
  end.
(** The executors named, src/query.rs 21-30. *)
Definition pg_spec_ok (s : spec) : bool :=
  match s with Except l => forallb storable l | Only l => forallb storable l end.
(** src/query.rs 12-59 and src/lib.rs 409-417: [delete_from_spec]. *)
Definition pg_prune (now : time) (ps : prune_spec) (t : tbl) : tbl * result unit :=
  match pg_doomed now ps (t_rows t) with
  | None => (t, Panic)
  | Some None => (t, Err BadState)
  | Some (Some ids) =>
      if pg_spec_ok (ps_executors ps)
      then (mk_tbl (filter (fun r => negb (existsb (Z.eqb (r_id r)) ids)) (t_rows t)) (t_next t), Ok tt)
      else (t, Err BadState)
  end.

(** Rust [collect::<Result<Vec<_>, _>>()] of the conversions, src/backend.rs 112-118. *)
Fixpoint read_rows (l : list row) : result (list job) :=
  match l with
  | [] => Ok []
  | r :: l' =>
      match job_of_row r with
      | Ok j => match read_rows l' with Ok js => Ok (j :: js) | Err e => Err e | Panic => Panic end
      | Err e => Err e
      | Panic => Panic
      end
  end.
(** src/query.rs 61-87, src/lib.rs 463-469, src/backend.rs 112-118: [query]. *)
Definition pg_query (q : query) (t : tbl) : result (list job) :=
  match select_rows q (t_rows t) with
  | None => Err BadState
  | Some rows => read_rows (stable_sort (fun a b => r_inserted_at b <=? r_inserted_at a) rows)
  end.

(** The operations of the [Backend] trait, and the load of a worker stream, on one table.
    Subscribing does not touch the table (src/backend.rs 31-54); the in-memory backend's own test
    helpers ([OpNotifyAll], [OpPause]) have no counterpart here and do nothing. *)
Definition pg_step (ident : option Z -> option string -> list status -> Z) (now : time) (t : tbl) (o : mop)
  : tbl * mres :=
  match o with
  | OpEnqueue e => let (t', r) := pg_enqueue ident now e t in (t', RId r)
  | OpLoad ex => let (t', r) := pg_load now ex t in (t', RJob r)
  | OpComplete id => let (t', r) := pg_complete now id t in (t', RUnit r)
  | OpRetryable id at_ e => let (t', r) := pg_retryable now id at_ e t in (t', RUnit r)
  | OpDiscarded id e => let (t', r) := pg_discarded now id e t in (t', RUnit r)
  | OpCancelled id e => let (t', r) := pg_cancelled now id e t in (t', RUnit r)
  | OpSnoozed id at_ => let (t', r) := pg_snoozed id at_ t in (t', RUnit r)
  | OpPrune ps => let (t', r) := pg_prune now ps t in (t', RUnit r)
  | OpRerun id => let (t', r) := pg_rerun now id t in (t', RUnit r)
  | OpUpdate j => let (t', r) := pg_update j t in (t', RUnit r)
  | OpQuery q => (t, RJobs (pg_query q t))
  | OpSubscribe _ | OpNotifyAll | OpPause => (t, RUnit (Ok tt))
  end.

(** Histories, as for the in-memory backend. *)
Fixpoint pg_run (ident : option Z -> option string -> list status -> Z) (t : tbl) (h : list (time * mop)) : tbl :=
  match h with
  | [] => t
  | (now, o) :: h' => pg_run ident (fst (pg_step ident now t o)) h'
  end.
