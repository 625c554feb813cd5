(** Vocabulary for the properties of the job runner. *)
From Verif Require Import Base Chrono Types Query Memory MemSpec Codec Runner.

(** * One execution *)

Section Spec.
  Context {D M : Type}.
  Variable c : codec D M.
  Variable fns : executor_fns D M.
  Variable show_duration : Z -> string.

  (** An outcome is a failure, with this error type and message. *)
  Inductive failed (timeout : option Z) : outcome -> error_type -> string -> Prop :=
  | failed_error ty msg : failed timeout (OError (Some (ty, msg))) (EOther ty) msg
  | failed_panic_text s text : failed timeout (OPanic (PText s) text) EPanic s
  | failed_panic text : failed timeout (OPanic PAny text) EPanic text
  | failed_aborted text : failed timeout (OAborted text) EPanic text
  | failed_timeout d : timeout = Some d ->
      failed timeout OElapsed ETimeout ("Job failed to complete within timeout: " ++ show_duration d).

  (** What is to be reported to the backend for the outcome of an execution of the stored job [j],
      whose typed form is [t], when the clock shows [now1] and then [now2]. *)
  Inductive to_report (j : job) (t : tjob D M) (now1 now2 : time) : outcome -> mop -> Prop :=
  | tr_done : to_report j t now1 now2 ODone (OpComplete (j_id j))
  | tr_cancel reason :
      to_report j t now1 now2 (OCancel (Some reason)) (OpCancelled (j_id j) (mk_exec_error ECancelled reason))
  | tr_snooze d : to_report j t now1 now2 (OSnooze d) (OpSnoozed (j_id j) (now1 + d))
  | tr_last timeout o ty msg :
      xf_timeout fns t = Some timeout -> failed timeout o ty msg -> j_attempt j = j_max_attempts j ->
      to_report j t now1 now2 o (OpDiscarded (j_id j) (mk_exec_error ty msg))
  | tr_again timeout d o ty msg :
      xf_timeout fns t = Some timeout -> failed timeout o ty msg -> j_attempt j <> j_max_attempts j ->
      xf_backoff fns t = Some d ->
      to_report j t now1 now2 o (OpRetryable (j_id j) (now2 + d) (mk_exec_error ty msg)).

  (** The stored job decodes and the executor's own functions answer for it. *)
  Definition runnable (j : job) : Prop :=
    exists t timeout d, typed_of_stored c j = ROk t /\ xf_timeout fns t = Some timeout
      /\ xf_backoff fns t = Some d.
  Definition undecodable (j : job) : Prop := exists e, typed_of_stored c j = RErr e.
End Spec.

(** * A worker's observations *)

Definition obs_number (o : observation) : nat :=
  match o with Taken n _ | Started n _ | Outcome n _ | Reported n _ => n end.
(** What was observed of message [n], oldest first. *)
Definition story (n : nat) (w : worker) : list observation :=
  filter (fun o => Nat.eqb (obs_number o) n) (rev (w_seen w)).

(** The number of messages being dealt with. *)
Definition in_progress (w : worker) : nat := length (w_flights w).

(** An execution's outcome that can be reported without leaving the range of dates and without a
    panic in the user's error types. *)
Definition reportable (x : execution) (now1 now2 : time) (o : outcome) : Prop :=
  match o with
  | ODone => True
  | OCancel reason => reason <> None
  | OSnooze d => dt_min <= now1 + d <= dt_max
  | _ => o <> OError None
         /\ (x_final x = false -> dt_min <= now1 + x_delay x <= dt_max /\ dt_min <= now2 + x_delay x <= dt_max)
  end.

(** * Workers and the store *)

(** The statuses of a job that some worker holds. *)
Definition holds (s : sys) (id : Z) : Prop := exists h, In h (s_held s) /\ j_id (h_job h) = id.

(** Outcomes reported for a job. *)
Definition outcomes (id : Z) (s : sys) : list outcome :=
  map snd (filter (fun x => fst x =? id) (s_log s)).
Definition is_snooze (o : outcome) : bool := match o with OSnooze _ => true | _ => false end.
Definition is_failure (o : outcome) : bool :=
  match o with OError _ | OElapsed | OPanic _ _ | OAborted _ => true | _ => false end.
(** Executions to a result other than snoozing, and failed executions. *)
Definition results (id : Z) (s : sys) : Z := Z.of_nat (length (filter (fun o => negb (is_snooze o)) (outcomes id s))).
Definition failures (id : Z) (s : sys) : Z := Z.of_nat (length (filter is_failure (outcomes id s))).

(** The request does not change the number of attempts of a job it conflicts with. *)
Definition keeps_attempts (e : enqueuable) : Prop :=
  forall uq r, eq_criteria e = Some uq -> uc_on_conflict uq = Replace r -> rp_max_attempts r = false.

(** An event of a history driven by workers: requests allow at least one attempt and do not change
    that number for existing jobs; from outside only waiting jobs are cancelled, no executing job is
    rerun or pruned, no job is reported on by anyone but its worker, and no update is made. *)
Definition orderly (s : sys) (ev : sevent) : Prop :=
  match ev with
  | SOp now (OpEnqueue e) => 1 <= eq_max_attempts e <= 65535 /\ keeps_attempts e
  | SOp now (OpCancelled id _) =>
      forall j, In j (jobs_of (s_mem s)) -> j_id j = id -> waiting j
  | SOp now (OpRerun id) =>
      forall j, In j (jobs_of (s_mem s)) -> j_id j = id ->
        j_status j <> Executing /\ j_max_attempts j < 2147483646
  | SOp now (OpPrune ps) =>
      ps_status ps <> Executing
      /\ match ps_by ps with
         | MaxAge d => dt_min <= now - d <= dt_max /\ dt_min <= now + d <= dt_max
         | MaxLength _ => True
         end
  | SOp _ (OpQuery _ | OpSubscribe _ | OpNotifyAll | OpPause) => True
  | SOp _ _ => False
  | STake _ _ => True
  | SReport _ _ _ _ _ => True
  end.

Section Orderly.
  Context {D M : Type}.
  Variable c : codec D M.
  Variable fns : executor_fns D M.
  Variable show_duration : Z -> string.
  Variable p : profile.

  Inductive orderly_run : sys -> list sevent -> sys -> Prop :=
  | or_nil s : orderly_run s [] s
  | or_cons s ev s1 es s' :
      orderly s ev -> sys_step c fns show_duration p s ev = Some s1 -> orderly_run s1 es s' ->
      orderly_run s (ev :: es) s'.
End Orderly.

Definition requests (es : list sevent) : Z :=
  Z.of_nat (length (filter (fun ev => match ev with SOp _ (OpEnqueue _) => true | _ => false end) es)).
Definition reruns (id : Z) (es : list sevent) : Z :=
  Z.of_nat (length (filter (fun ev => match ev with SOp _ (OpRerun i) => i =? id | _ => false end) es)).
(** The history contains the request that made job [id], which allowed [m] attempts counting those
    added by reruns since. *)
Definition allowed {D M} (c : codec D M) (fns : executor_fns D M) (show_duration : Z -> string) (p : profile)
    (es : list sevent) (id m : Z) : Prop :=
  exists es1 now e es2 s1,
    es = es1 ++ SOp now (OpEnqueue e) :: es2
    /\ orderly_run c fns show_duration p sys_init es1 s1
    /\ snd (mem_step p now (s_mem s1) (OpEnqueue e)) = RId (Ok id)
    /\ (forall j, In j (jobs_of (s_mem s1)) -> j_id j <> id)
    /\ 1 <= eq_max_attempts e <= 65535
    /\ m = eq_max_attempts e + reruns id es2.
(** Nobody reran or cancelled the job from outside. *)
Definition left_alone (id : Z) (es : list sevent) : Prop :=
  forall now o, In (SOp now o) es -> match o with OpRerun i | OpCancelled i _ => i <> id | _ => True end.

(** The finish timestamps that are set are the ones of the job's status. *)
Definition timestamps_match (j : job) : Prop :=
  (j_completed_at j <> None <-> j_status j = Complete)
  /\ (j_cancelled_at j <> None <-> j_status j = Cancelled)
  /\ (j_discarded_at j <> None <-> j_status j = Discarded).
