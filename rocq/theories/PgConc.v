(** The Postgres backend used by several callers at once, rexecutor-sqlx/src/lib.rs: calls in
    progress, advanced one action at a time in any order, in as many processes as one likes (nothing
    is shared but the database).

    What is assumed of Postgres at its default isolation level, [READ COMMITTED] (documentation,
    13.2.1, 13.3 and SELECT, "The Locking Clause"): each statement sees the rows committed before it
    began; a statement that changes or locks a row waits while another transaction holds that row's
    lock, then works on the row's latest version; [SKIP LOCKED] passes over locked rows; a row picked
    for locking that changed since the snapshot is checked again, against the conditions of the
    locking query; locks are kept until the transaction ends; drawing from a sequence is never undone;
    [now()] is the time the transaction began.

    Simplifications: changes of a transaction become visible when it ends, with its last statement
    and the commit taken as one action; a call that finds no row to change, or only reads, is one
    action; an update by id waits for its row even if its parameters will be refused. *)
From Verif Require Import Base Chrono Types Query Memory PgRow PgQuery Pg.

(** Where a call stands; [now] is when its transaction began. *)
Inductive qpc :=
| QStart                                               (* nothing done yet *)
| QScan (now : time) (ids : list Z)                    (* lib.rs 127-135: candidates left to try *)
| QHeld (now : time) (id : Z)                          (* row locked, about to update and commit *)
| QBegun (now : time)                                  (* 189: about to take the advisory lock *)
| QAlone (now : time)                                  (* 194: advisory lock held, about to select *)
| QFree (now : time)                                   (* 201: nothing found, about to insert *)
| QFound (now : time) (id : Z)                         (* 263: about to lock the row to replace *)
| QReplacing (now : time) (id : Z)                     (* 263: row locked as well *)
| QDrawn (now : time) (id : Z)                         (* 178, 226: inserted, about to commit *)
| QDooming (now : time) (taken rest : list Z)          (* 410: rows deleted, rows to delete *)
| QDone (r : mres).                                    (* the answer is on its way or returned *)

(** A call: the operation and where it stands. *)
Record qcall := mk_qcall { qc_op : mop; qc_pc : qpc }.

(** The whole system: what is committed, and the calls. *)
Record qstate := mk_q { q_tbl : tbl; q_calls : list qcall }.

(** What the actions do that is visible to the theorems. *)
Inductive qevent :=
| QvInsert (i : nat) (r : row)                         (* call i committed the new row r *)
| QvWrite (i : nat) (o : mop) (before after : row)     (* call i, executing o, changed a row *)
| QvDelete (i : nat) (rows : list row).                (* call i deleted these rows *)

(** The row locks a call holds. *)
Definition row_locks (c : qcall) : list Z :=
  match qc_pc c with
  | QHeld _ id | QReplacing _ id => [id]
  | QDooming _ taken _ => taken
  | _ => []
  end.
(** Some call holds the lock of row [id]. *)
Definition row_locked (cs : list qcall) (id : Z) : bool :=
  existsb (fun c => existsb (Z.eqb id) (row_locks c)) cs.

(** The version of a row that is committed. *)
Definition find_row (id : Z) (rows : list row) : option row := find (fun r => r_id r =? id) rows.

(** The row an operation is about, lib.rs 275-388, 419-461. *)
Definition target (o : mop) : option Z :=
  match o with
  | OpComplete id | OpRetryable id _ _ | OpDiscarded id _ | OpCancelled id _ | OpSnoozed id _ | OpRerun id => Some id
  | OpUpdate j => Some (j_id j)
  | _ => None
  end.

(** lib.rs 115-157: one action of [load_job_mark_as_executing_for_executor]; a row is only passed
    over if it is locked, gone or no longer fits.  The conversion of the row is at stream.rs 39. *)
Definition load_action (i : nat) (now : time) (cs : list qcall) (t : tbl) (ex : string) (pc : qpc)
  : tbl * qpc * list qevent :=
  match pc with
  | QStart =>
      if negb (storable ex) then (t, QDone (RJob (Err BadState)), [])
      else (t, QScan now (map r_id (stable_sort pg_leb (filter (pg_ready now ex) (t_rows t)))), [])
  | QScan began [] => (t, QDone (RJob (Ok None)), [])
  | QScan began (id :: rest) =>
      (t,
       if row_locked cs id then QScan began rest
       else match find_row id (t_rows t) with
            | Some r => if pg_ready began ex r then QHeld began id else QScan began rest
            | None => QScan began rest
            end, [])
  | QHeld began id =>
      match find_row id (t_rows t) with
      | None => (t, QDone (RJob (Ok None)), [])
      | Some r =>
          match update_rows id (pg_take began) (t_rows t), pg_take began r with
          | Some (l, _), Some r' =>
              (mk_tbl l (t_next t),
               QDone (RJob match job_of_row r' with Ok j => Ok (Some j) | Err e => Err e | Panic => Panic end),
               [QvWrite i (OpLoad ex) r r'])
          | _, _ => (t, QDone (RJob (Err BadState)), [])
          end
      end
  | _ => (t, pc, [])
  end.

(** lib.rs 275-388, 419-461: one action of an update by id. *)
Definition row_action (ident : option Z -> option string -> list status -> Z)
  (i : nat) (now : time) (cs : list qcall) (t : tbl) (o : mop) (id : Z) (pc : qpc) : tbl * qpc * list qevent :=
  match pc with
  | QStart =>
      match find_row id (t_rows t) with
      | None => (t, QDone (snd (pg_step ident now t o)), [])
      | Some _ => (t, if row_locked cs id then QStart else QHeld now id, [])
      end
  | QHeld began _ =>
      let (t', r) := pg_step ident began t o in
      (t', QDone r,
       match r, find_row id (t_rows t), find_row id (t_rows t') with
       | RUnit (Ok _), Some b, Some a => [QvWrite i o b a]
       | _, _, _ => []
       end)
  | _ => (t, pc, [])
  end.

(** lib.rs 410, query.rs 12-59: one action of a prune.  The rows are chosen once, at the start; a row
    that has changed since is deleted all the same, because the condition [id IN (...)] still holds
    of it.  Simplification: they are locked in the order in which the subquery gives them. *)
Definition prune_action (i : nat) (now : time) (cs : list qcall) (t : tbl) (ps : prune_spec) (pc : qpc)
  : tbl * qpc * list qevent :=
  match pc with
  | QStart =>
      match pg_doomed now ps (t_rows t) with
      | None => (t, QDone (RUnit Panic), [])
      | Some None => (t, QDone (RUnit (Err BadState)), [])
      | Some (Some ids) =>
          if pg_spec_ok (ps_executors ps) then (t, QDooming now [] ids, []) else (t, QDone (RUnit (Err BadState)), [])
      end
  | QDooming began taken (id :: rest) =>
      (t,
       match find_row id (t_rows t) with
       | None => QDooming began taken rest
       | Some _ => if row_locked cs id then pc else QDooming began (id :: taken) rest
       end, [])
  | QDooming began taken [] =>
      (mk_tbl (filter (fun r => negb (existsb (Z.eqb (r_id r)) taken)) (t_rows t)) (t_next t),
       QDone (RUnit (Ok tt)),
       [QvDelete i (filter (fun r => existsb (Z.eqb (r_id r)) taken) (t_rows t))])
  | _ => (t, pc, [])
  end.

(** lib.rs 159-183, 203-227: the INSERT statement, up to drawing the id. *)
Definition draw (now : time) (t : tbl) (e : enqueuable) : tbl * qpc :=
  if negb (pg_request_ok e) then (t, QDone (RId (Err BadState)))
  else if 2147483647 <? t_next t then (t, QDone (RId (Err BadState)))
  else (mk_tbl (t_rows t) (t_next t + 1), QDrawn now (t_next t)).
(** Its commit. *)
Definition commit_insert (i : nat) (began : time) (id : Z) (key : option Z) (t : tbl) (e : enqueuable)
  : tbl * qpc * list qevent :=
  (mk_tbl (t_rows t ++ [new_row began id key e]) (t_next t), QDone (RId (Ok id)),
   [QvInsert i (new_row began id key e)]).

(** lib.rs 159-183: one action of [insert_job]. *)
Definition insert_action (i : nat) (now : time) (t : tbl) (e : enqueuable) (pc : qpc) : tbl * qpc * list qevent :=
  match pc with
  | QStart => let (t', pc') := draw now t e in (t', pc', [])
  | QDrawn began id => commit_insert i began id None t e
  | _ => (t, pc, [])
  end.

Section Advisory.
  (** [unique_identifier], unique.rs 19-27. *)
  Variable ident : option Z -> option string -> list status -> Z.

  (** The advisory lock a call holds. *)
  Definition advisory (c : qcall) : option Z :=
    match qc_op c, qc_pc c with
    | OpEnqueue e, (QAlone _ | QFree _ | QFound _ _ | QReplacing _ _ | QDrawn _ _) =>
        match eq_criteria e with Some uq => Some (request_ident ident uq e) | None => None end
    | _, _ => None
    end.
  (** Some call holds it. *)
  Definition advisory_held (cs : list qcall) (k : Z) : bool :=
    existsb (fun c => match advisory c with Some k' => k' =? k | None => false end) cs.

  (** lib.rs 239-264: the UPDATE of a replacement and the commit. *)
  Definition commit_replace (i : nat) (rp : replace_spec) (e : enqueuable) (id : Z) (t : tbl)
    : tbl * qpc * list qevent :=
    match pg_replace rp e id t with
    | None => (t, QDone (RId (Err BadState)), [])
    | Some t' =>
        (t', QDone (RId (Ok id)),
         match find_row id (t_rows t), find_row id (t_rows t') with
         | Some b, Some a => [QvWrite i (OpEnqueue e) b a]
         | _, _ => []
         end)
    end.

  (** lib.rs 185-273: one action of [insert_unique_job].  The query has no ORDER BY: [pick] says
      which of the conflicting rows it returns. *)
  Definition unique_action (i : nat) (now : time) (pick : nat) (cs : list qcall) (t : tbl) (e : enqueuable)
    (uq : criteria) (pc : qpc) : tbl * qpc * list qevent :=
    match pc with
    | QStart => (t, QBegun now, [])
    | QBegun began =>
        (t, if advisory_held cs (request_ident ident uq e) then pc else QAlone began, [])
    | QAlone began =>
        match pg_window uq (eq_scheduled_at e) with
        | None => (t, QDone (RId Panic), [])
        | Some window =>
            if negb (pg_window_ok uq (eq_executor e) window) then (t, QDone (RId (Err BadState)), [])
            else
              let found := filter (pg_conflict uq (eq_executor e) window) (t_rows t) in
              match nth_error found (Nat.modulo pick (length found)) with
              | None => (t, QFree began, [])
              | Some r =>
                  (t,
                   match uc_on_conflict uq with
                   | Replace rp =>
                       if existsb (fun s => String.eqb (label s) (r_status r)) (rp_for_statuses rp)
                       then QFound began (r_id r)
                       else QDone (RId (Ok (r_id r)))
                   | DoNothing => QDone (RId (Ok (r_id r)))
                   end, [])
              end
        end
    | QFree began => let (t', pc') := draw began t e in (t', pc', [])
    | QDrawn began id => commit_insert i began id (Some (request_ident ident uq e)) t e
    | QFound began id =>
        match find_row id (t_rows t), uc_on_conflict uq with
        | Some _, _ => (t, if row_locked cs id then pc else QReplacing began id, [])
        | None, Replace rp => commit_replace i rp e id t
        | None, DoNothing => (t, pc, [])
        end
    | QReplacing began id =>
        match uc_on_conflict uq with
        | Replace rp => commit_replace i rp e id t
        | DoNothing => (t, pc, [])
        end
    | _ => (t, pc, [])
    end.

  (** backend.rs 55-119: one action of a call. *)
  Definition action (i : nat) (now : time) (pick : nat) (cs : list qcall) (t : tbl) (c : qcall)
    : tbl * qpc * list qevent :=
    match qc_op c with
    | OpLoad ex => load_action i now cs t ex (qc_pc c)
    | OpEnqueue e =>
        match eq_criteria e with
        | None => insert_action i now t e (qc_pc c)
        | Some uq => unique_action i now pick cs t e uq (qc_pc c)
        end
    | OpPrune ps => prune_action i now cs t ps (qc_pc c)
    | o =>
        match target o, qc_pc c with
        | Some id, pc => row_action ident i now cs t o id pc
        | None, QStart => (t, QDone (snd (pg_step ident now t o)), [])
        | None, pc => (t, pc, [])
        end
    end.

  (** What may happen next. *)
  Inductive qlabel :=
  | QCall (o : mop)                                    (* somebody calls an operation *)
  | QRun (i : nat) (now : time) (pick : nat)           (* call i advances *)
  | QAbort (i : nat) (e : backend_error).                     (* call i fails *)

  (** What a call returns when the database reports an error, [map_err], lib.rs 45-55. *)
  Definition failed (o : mop) (e : backend_error) : mres :=
    match o with
    | OpEnqueue _ => RId (Err e)
    | OpLoad _ => RJob (Err e)
    | OpQuery _ => RJobs (Err e)
    | _ => RUnit (Err e)
    end.
  (** Where a call stands after that, lib.rs 115-461: an unfinished transaction is rolled back; of a
      call the server is done with, the answer is lost. *)
  Definition gives_up (e : backend_error) (c : qcall) : qpc := QDone (failed (qc_op c) e).

  (** One step of the system; a label that is not enabled changes nothing.  [QAbort] is an error of
      the connection or the server at any moment: among others, Postgres ending a prune to resolve a
      deadlock (documentation, 13.3.4), a prune being the only statement that waits for a row while
      it holds others, or the connection breaking after the commit, when the caller is told of a
      failure that did not happen.  Simplification: [QDone] is reached when the server is done, so
      executions in which the caller has its answer are those without a later [QAbort] of the call. *)
  Definition qstep (s : qstate) (l : qlabel) : qstate * list qevent :=
    match l with
    | QCall o => (mk_q (q_tbl s) (q_calls s ++ [mk_qcall o QStart]), [])
    | QRun i now pick =>
        match nth_error (q_calls s) i with
        | None => (s, [])
        | Some c =>
            let '(t', pc', ev) := action i now pick (q_calls s) (q_tbl s) c in
            (mk_q t' (set_nth i (mk_qcall (qc_op c) pc') (q_calls s)), ev)
        end
    | QAbort i e =>
        match nth_error (q_calls s) i with
        | None => (s, [])
        | Some c => (mk_q (q_tbl s) (set_nth i (mk_qcall (qc_op c) (gives_up e c)) (q_calls s)), [])
        end
    end.

  (** An execution: any sequence of labels. *)
  Fixpoint qrun (s : qstate) (ls : list qlabel) : qstate :=
    match ls with
    | [] => s
    | l :: ls' => qrun (fst (qstep s l)) ls'
    end.

  (** Its events. *)
  Fixpoint qtrace (s : qstate) (ls : list qlabel) : list qevent :=
    match ls with
    | [] => []
    | l :: ls' => snd (qstep s l) ++ qtrace (fst (qstep s l)) ls'
    end.
End Advisory.
