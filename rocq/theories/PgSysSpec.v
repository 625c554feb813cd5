(** Vocabulary for workers driving the Postgres backend.  Nothing here uses the backend's own
    functions, except that a history is a sequence of steps. *)
From Verif Require Import Base Chrono Types Query Memory MemSpec Codec Runner RunnerSpec PgRow Pg PgSpec PgSys.

(** The table has this job. *)
Definition stored (s : pgsys) (j : job) : Prop := exists r, In r (t_rows (g_tbl s)) /\ represents r j.
(** A worker holds the job; the report on the job was lost. *)
Definition held (s : pgsys) (id : Z) : Prop := exists h, In h (g_held s) /\ j_id (h_job h) = id.
Definition lost (s : pgsys) (id : Z) : Prop := In id (g_lost s).

(** Outcomes reported for a job, those that are results, those that are failures. *)
Definition pg_outcomes (id : Z) (s : pgsys) : list outcome :=
  map snd (filter (fun x => fst x =? id) (g_log s)).
Definition pg_results (id : Z) (s : pgsys) : Z :=
  Z.of_nat (length (filter (fun o => negb (is_snooze o)) (pg_outcomes id s))).
Definition pg_failures (id : Z) (s : pgsys) : Z := Z.of_nat (length (filter is_failure (pg_outcomes id s))).
(** Executions that ended with a result or with a lost report. *)
Definition executions (id : Z) (s : pgsys) : Z :=
  pg_results id s + Z.of_nat (length (filter (Z.eqb id) (g_lost s))).

(** An event of a history driven by workers, as [orderly]: requests allow at least one attempt and
    do not change that number for existing jobs; from outside only waiting jobs are cancelled, no
    executing job is rerun or pruned, no job is rerun beyond 65535 attempts or when the clock shows a
    date before 4714 BC, no job is reported on by anyone but its worker, and no update is made. *)
Definition pg_orderly (s : pgsys) (ev : sevent) : Prop :=
  match ev with
  | SOp _ (OpEnqueue e) => 1 <= eq_max_attempts e <= 65535 /\ keeps_attempts e
  | SOp _ (OpCancelled id _) => forall j, stored s j -> j_id j = id -> waiting j
  | SOp now (OpRerun id) =>
      -210866803200000000000 <= now
      /\ forall j, stored s j -> j_id j = id -> j_status j <> Executing /\ j_max_attempts j < 65535
  | SOp _ (OpPrune ps) => ps_status ps <> Executing
  | SOp _ (OpQuery _ | OpSubscribe _ | OpNotifyAll | OpPause) => True
  | SOp _ _ => False
  | STake _ _ => True
  | SReport _ _ _ _ _ => True
  end.

Section Orderly.
  Context {D M : Type}.
  Variable c : codec D M.
  Variable fns : executor_fns D M.
  Variable show_duration : Z -> string.
  Variable ident : option Z -> option string -> list status -> Z.

  Inductive pg_orderly_run : pgsys -> list sevent -> pgsys -> Prop :=
  | por_nil s : pg_orderly_run s [] s
  | por_cons s ev s1 es s' :
      pg_orderly s ev -> pgsys_step c fns show_duration ident s ev = Some s1 -> pg_orderly_run s1 es s' ->
      pg_orderly_run s (ev :: es) s'.

  (** The history contains the request that made job [id], which allowed [m] attempts counting those
      added by reruns since. *)
  Definition pg_allowed (es : list sevent) (id m : Z) : Prop :=
    exists es1 now e es2 s1,
      es = es1 ++ SOp now (OpEnqueue e) :: es2
      /\ pg_orderly_run pgsys_init es1 s1
      /\ snd (pg_step ident now (g_tbl s1) (OpEnqueue e)) = RId (Ok id)
      /\ (forall j, stored s1 j -> j_id j <> id)
      /\ 1 <= eq_max_attempts e <= 65535
      /\ m = eq_max_attempts e + reruns id es2.
End Orderly.
