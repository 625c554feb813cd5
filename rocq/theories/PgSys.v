(** Workers driving the Postgres backend: the table with the executions that hold one of its jobs,
    as Runner.v has it for the in-memory store.

    Simplification: every operation is one step.  Each is a single statement, or for a unique
    enqueue a transaction whose overlaps are in PgConc.v. *)
From Verif Require Import Base Chrono Types Query Memory Codec Runner PgRow Pg.

(** [g_lost]: jobs whose report the database did not take; the runner logs the error and forgets the
    job (rexecutor/src/job/runner.rs 163-268, every [inspect_err]). *)
Record pgsys := mk_pgsys {
  g_tbl : tbl;
  g_held : list holding;
  g_log : list (Z * outcome);    (* outcomes whose report was taken, latest first, with the job id *)
  g_lost : list Z
}.
Definition pgsys_init : pgsys := mk_pgsys tbl_init [] [] [].

Section PgSys.
  Context {D M : Type}.
  Variable c : codec D M.
  Variable fns : executor_fns D M.
  Variable show_duration : Z -> string.
  Variable ident : option Z -> option string -> list status -> Z.

  (** The events of Runner.v.  An operation from outside: rexecutor-sqlx/src/backend.rs 31-118.  A
      hand-out: rexecutor-sqlx/src/stream.rs 17-49 and rexecutor/src/job/runner.rs 50-62; an error of
      the stream is logged.  A report: rexecutor/src/job/runner.rs 105-268. *)
  Definition pgsys_step (s : pgsys) (e : sevent) : option pgsys :=
    match e with
    | SOp now o => Some (mk_pgsys (fst (pg_step ident now (g_tbl s) o)) (g_held s) (g_log s) (g_lost s))
    | STake now ex =>
        match pg_load now ex (g_tbl s) with
        | (t', Ok (Some j)) =>
            Some (mk_pgsys t' (g_held s ++ [mk_holding j
                    (match begin_job c fns j with Spawned x => Some x | _ => None end)]) (g_log s) (g_lost s))
        | (t', _) => Some (mk_pgsys t' (g_held s) (g_log s) (g_lost s))
        end
    | SReport now1 now2 now i o =>
        match nth_error (g_held s) i with
        | Some (mk_holding _ (Some x)) =>
            match report show_duration now1 now2 x o with
            | Some op =>
                match pg_step ident now (g_tbl s) op with
                | (t', RUnit (Ok tt)) =>
                    Some (mk_pgsys t' (drop_nth i (g_held s)) ((x_id x, o) :: g_log s) (g_lost s))
                | (t', _) =>
                    Some (mk_pgsys t' (drop_nth i (g_held s)) (g_log s) (x_id x :: g_lost s))
                end
            | None => None
            end
        | _ => None
        end
    end.

  (** A history of such events. *)
  Fixpoint pgsys_run (s : pgsys) (es : list sevent) : option pgsys :=
    match es with
    | [] => Some s
    | e :: es' => match pgsys_step s e with None => None | Some s' => pgsys_run s' es' end
    end.
End PgSys.
