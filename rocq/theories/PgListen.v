(** How workers on Postgres learn of jobs: the trigger that announces them, the listener of each
    process, and the streams that look for jobs, on top of the overlapping calls of PgConc.v.

    Assumptions on Postgres and sqlx: a transaction's notifications reach every listening connection
    when it commits, in order of commit; [PgListener::recv] (sqlx 0.8.6) gives them one after the
    other, and connects again by itself when its connection breaks, losing what was sent meanwhile.

    Simplifications: the clocks of the processes and the server may be read at any value, as
    everywhere; a process that ends, or a stream that is dropped, is one that is no longer advanced;
    an announcement of 8000 bytes or more, which Postgres refuses, is left out (the name of the
    executor would have to be that long). *)
From Verif Require Import Base Chrono Types Query Memory PgRow PgQuery Pg PgConc.

(** rexecutor-sqlx/src/lib.rs 37-41: [Notification]. *)
Record note := mk_note { n_executor : string; n_at : time }.

(** migrations/20240330221437_add-job-table.up.sql 42-63: [rexecutor_new_job_notify]. *)
Definition row_note (r : row) : list note :=
  if String.eqb (r_status r) "scheduled" || String.eqb (r_status r) "retryable"
  then [mk_note (r_executor r) (r_scheduled_at r)] else [].

(** up.sql 65-73: the function runs after every insert and every update of a row. *)
Definition event_notes (ev : qevent) : list note :=
  match ev with
  | QvInsert _ r => row_note r
  | QvWrite _ _ _ after => row_note after
  | QvDelete _ _ => []
  end.

(** Whether [serde_json::from_str], lib.rs 84, understands the announcement.  Postgres writes
    [scheduled_at] (up.sql 52) with at least four digits of the year and no sign, followed by "BC"
    for years before 1; chrono's reader wants exactly four digits without a sign, and no suffix. *)
Definition note_readable (n : note) : bool :=
  (-62135596800 * ns_per_s <=? n_at n) && (n_at n <? 253402300800 * ns_per_s).

(** A process that uses the backend: whether its listener task (lib.rs 80-101) still runs, and the
    announcements that have not been given to it. *)
Record client := mk_client { cl_listening : bool; cl_inbox : list note }.

(** A worker stream, stream.rs 14-48.  The fields besides the delay record, for the theorems, what the
    stream saw ([seen]), when it read the clock ([read]) and when it went to sleep ([slept]). *)
Inductive pphase :=
| PCheck                                                               (* 21: about to query *)
| PGot (seen : option time)                                            (* 28: about to read the clock *)
| PTry (seen : option time) (read : time) (delay : Z)                  (* 35: about to load a job *)
| PLoading (seen : option time) (read : time) (delay : Z) (i : nat)    (* 35: call i is doing so *)
| PSelect (seen : option time) (read : time) (delay : Z)               (* 41: about to sleep *)
| PWait (seen : option time) (read slept : time) (delay : Z)           (* 41: in [select!] *)
| PYield (r : result job).                                             (* 24, 37, 39: produced an item *)

(** stream.rs 8-12: the process it belongs to, its executor, its channel, and where it stands. *)
Record pstream := mk_pstream { s_client : nat; s_executor : string; s_queue : list time; s_phase : pphase }.

(** The database, the processes and the streams. *)
Record nstate := mk_n { n_db : qstate; n_clients : list client; n_streams : list pstream }.

(** stream.rs 15-16. *)
Definition pg_default_delay : Z := 30 * ns_per_s.
Definition pg_delta : Z := 15 * ns_per_ms.

(** stream.rs 20-33: the delay. *)
Definition pg_delay (seen : option time) (now : time) : Z :=
  match seen with
  | Some t => Z.min (match to_std (dt_diff t now) with Some d => d | None => pg_delta end) pg_default_delay
  | None => pg_default_delay
  end.

(** What happens that is visible to the theorems. *)
Inductive nevent :=
| NvDb (ev : qevent)                         (* something in the database *)
| NvYield (k i : nat) (j : job).             (* stream k gives its worker the job j that call i loaded *)

(** The item a finished load gives, stream.rs 35-39: an error of the database is replaced, one of the
    conversion is kept. *)
Definition load_item (r : mres) : option (result job) :=
  match r with
  | RJob (Ok None) => None
  | RJob (Ok (Some j)) => Some (Ok j)
  | RJob (Err EncodeDecode) => Some (Err EncodeDecode)
  | _ => Some (Err BadState)
  end.

(** stream.rs 18-48, backend.rs 49-53: one step of a stream that is not woken by a message, with
    the call it makes, if any. *)
Definition pstream_step (now : time) (db : qstate) (k : nat) (s : pstream) : pphase * option mop * list nevent :=
  match s_phase s with
  | PCheck =>
      (match pg_next_available (s_executor s) (q_tbl db) with
       | Ok t => PGot t
       | _ => PYield (Err BadState)
       end, None, [])
  | PGot t =>
      let d := pg_delay t now in
      (if d <=? pg_delta then PTry t now d else PSelect t now d, None, [])
  | PTry t read d => (PLoading t read d (length (q_calls db)), Some (OpLoad (s_executor s)), [])
  | PLoading t read d i =>
      match nth_error (q_calls db) i with
      | Some (mk_qcall _ (QDone r)) =>
          match load_item r with
          | Some (Ok j) => (PYield (Ok j), None, [NvYield k i j])
          | Some e => (PYield e, None, [])
          | None => (PSelect t read d, None, [])
          end
      | _ => (s_phase s, None, [])
      end
  | PSelect t read d => (PWait t read now d, None, [])
  | PWait t read slept d => (if slept + d <=? now then PCheck else s_phase s, None, [])
  | PYield _ => (PCheck, None, [])
  end.

(** The stream in another phase, or with another channel, stream.rs 8-12. *)
Definition set_phase (ph : pphase) (s : pstream) : pstream := mk_pstream (s_client s) (s_executor s) (s_queue s) ph.
Definition set_queue (q : list time) (s : pstream) : pstream := mk_pstream (s_client s) (s_executor s) q (s_phase s).

(** up.sql 54: [pg_notify] puts the announcements into every inbox. *)
Definition announce (ns : list note) (c : client) : client := mk_client (cl_listening c) (cl_inbox c ++ ns).

(** lib.rs 86-98: the listener of process [c] passes the time on to the streams of the executor. *)
Definition pass_on (c : nat) (n : note) (s : pstream) : pstream :=
  if Nat.eqb (s_client s) c && String.eqb (s_executor s) (n_executor n)
  then set_queue (s_queue s ++ [n_at n]) s else s.

(** What may happen next. *)
Inductive nlabel :=
| NDb (l : qlabel)                           (* the database is called or advances *)
| NOpen                                      (* lib.rs 67-102: a process connects *)
| NDeliver (c : nat)                         (* lib.rs 82: the listener is given an announcement *)
| NLost (c : nat)                            (* its connection breaks and comes back *)
| NClosed (c : nat)                          (* its connection breaks for good *)
| NSubscribe (c : nat) (ex : string)         (* backend.rs 31-54 *)
| NStream (k : nat) (now : time)             (* stream k advances; when waiting: its timer fires if it may *)
| NRecv (k : nat)                            (* stream k, waiting, receives a message *)
| NError (k : nat).                          (* the query of stream k fails, stream.rs 24 *)

Section Listen.
  (** [unique_identifier], unique.rs 19-27. *)
  Variable ident : option Z -> option string -> list status -> Z.

  (** A step in the database, with its announcements, up.sql 65-73. *)
  Definition db_step (s : nstate) (l : qlabel) : nstate * list nevent :=
    let (db, evs) := qstep ident (n_db s) l in
    (mk_n db (map (announce (flat_map event_notes evs)) (n_clients s)) (n_streams s), map NvDb evs).

  (** One step of the system; a label that is not enabled changes nothing.  lib.rs 67-102, backend.rs
      31-54, stream.rs 18-48. *)
  Definition nstep (s : nstate) (l : nlabel) : nstate * list nevent :=
    match l with
    | NDb q => db_step s q
    | NOpen => (mk_n (n_db s) (n_clients s ++ [mk_client true []]) (n_streams s), [])
    | NDeliver c =>
        match nth_error (n_clients s) c with
        | Some (mk_client true (n :: rest)) =>
            if note_readable n
            then (mk_n (n_db s) (set_nth c (mk_client true rest) (n_clients s)) (map (pass_on c n) (n_streams s)), [])
            else (mk_n (n_db s) (set_nth c (mk_client false rest) (n_clients s)) (n_streams s), [])
        | _ => (s, [])
        end
    | NLost c =>
        match nth_error (n_clients s) c with
        | Some cl => (mk_n (n_db s) (set_nth c (mk_client (cl_listening cl) []) (n_clients s)) (n_streams s), [])
        | None => (s, [])
        end
    | NClosed c =>
        match nth_error (n_clients s) c with
        | Some cl => (mk_n (n_db s) (set_nth c (mk_client false (cl_inbox cl)) (n_clients s)) (n_streams s), [])
        | None => (s, [])
        end
    | NSubscribe c ex =>
        match nth_error (n_clients s) c with
        | Some _ => (mk_n (n_db s) (n_clients s) (n_streams s ++ [mk_pstream c ex [] PCheck]), [])
        | None => (s, [])
        end
    | NStream k now =>
        match nth_error (n_streams s) k with
        | Some st =>
            let '(ph, call, evs) := pstream_step now (n_db s) k st in
            (mk_n (match call with Some o => fst (qstep ident (n_db s) (QCall o)) | None => n_db s end)
                  (n_clients s) (set_nth k (set_phase ph st) (n_streams s)), evs)
        | None => (s, [])
        end
    | NRecv k =>
        match nth_error (n_streams s) k with
        | Some (mk_pstream c ex (_ :: q) (PWait _ _ _ _)) =>
            (mk_n (n_db s) (n_clients s) (set_nth k (mk_pstream c ex q PCheck) (n_streams s)), [])
        | _ => (s, [])
        end
    | NError k =>
        match nth_error (n_streams s) k with
        | Some (mk_pstream c ex q PCheck) =>
            (mk_n (n_db s) (n_clients s) (set_nth k (mk_pstream c ex q (PYield (Err BadState))) (n_streams s)), [])
        | _ => (s, [])
        end
    end.

  (** An execution: any sequence of labels. *)
  Fixpoint nrun (s : nstate) (ls : list nlabel) : nstate :=
    match ls with
    | [] => s
    | l :: ls' => nrun (fst (nstep s l)) ls'
    end.

  (** Its events. *)
  Fixpoint ntrace (s : nstate) (ls : list nlabel) : list nevent :=
    match ls with
    | [] => []
    | l :: ls' => snd (nstep s l) ++ ntrace (fst (nstep s l)) ls'
    end.
End Listen.

(** A database as it is found, nobody connected, lib.rs 67-71. *)
Definition n_found (t : tbl) : nstate := mk_n (mk_q t []) [] [].
