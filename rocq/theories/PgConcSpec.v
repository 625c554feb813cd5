(** Vocabulary for the properties of overlapping calls to the Postgres backend. *)
From Verif Require Import Base Chrono Types Query Memory MemSpec PgRow Pg PgSpec PgConc.

(** A table as the database keeps it: ids differ and are below the next value of the sequence. *)
Definition sound_table (t : tbl) : Prop :=
  NoDup (map r_id (t_rows t)) /\ (forall r, In r (t_rows t) -> 1 <= r_id r < t_next t)
  /\ 1 <= t_next t <= 2147483648.

(** The table as it is found, nobody calling yet. *)
Definition opened (t : tbl) : qstate := mk_q t [].

(** The event gives row [id] to a worker. *)
Definition takes (id : Z) (ev : qevent) : Prop :=
  match ev with QvWrite _ (OpLoad _) b _ => r_id b = id | _ => False end.
(** The event makes row [id] wait again: a retry, a snooze or a rerun. *)
Definition frees (id : Z) (ev : qevent) : Prop :=
  match ev with
  | QvWrite _ (OpRetryable i _ _ | OpSnoozed i _ | OpRerun i) b _ => i = id /\ r_id b = id
  | _ => False
  end.
(** The event deletes row [id]. *)
Definition deletes (id : Z) (ev : qevent) : Prop :=
  match ev with QvDelete _ l => In id (map r_id l) | _ => False end.

(** The rows inserted, in order. *)
Definition inserts (tr : list qevent) : list row :=
  flat_map (fun ev => match ev with QvInsert _ r => [r] | _ => [] end) tr.

(** Call [i] is a call of [o] and has returned [r]. *)
Definition finished (s : qstate) (i : nat) (o : mop) (r : mres) : Prop :=
  nth_error (q_calls s) i = Some (mk_qcall o (QDone r)).
(** Every call has returned. *)
Definition all_finished (s : qstate) : Prop :=
  forall i c, nth_error (q_calls s) i = Some c -> exists r, qc_pc c = QDone r.

(** The event changes or deletes row [id] so that it no longer fits [fits]. *)
Definition spoils (fits : row -> Prop) (id : Z) (ev : qevent) : Prop :=
  match ev with
  | QvWrite _ _ b a => r_id b = id /\ ~ fits a
  | QvDelete _ l => In id (map r_id l)
  | QvInsert _ _ => False
  end.

(** What the trace says of row [id]: how often it was handed out less how often it was snoozed, and
    for each failure reported the attempt it happened in and the message. *)
Definition attempts_made (id : Z) (ev : qevent) : Z :=
  match ev with
  | QvWrite _ (OpLoad _) b _ => if Z.eq_dec (r_id b) id then 1 else 0
  | QvWrite _ (OpSnoozed _ _) b _ => if Z.eq_dec (r_id b) id then -1 else 0
  | _ => 0
  end.
Definition failures (id : Z) (ev : qevent) : list (Z * string) :=
  match ev with
  | QvWrite _ (OpRetryable _ _ e | OpDiscarded _ e | OpCancelled _ e) b _ =>
      if Z.eq_dec (r_id b) id then [(r_attempt b, ee_message e)] else []
  | _ => []
  end.
Definition total (l : list Z) : Z := fold_right Z.add 0 l.

(** The row conflicts with the request, as the Postgres backend decides it: as [conflicts_pg], but
    said of the row. *)
Definition clashes (e : enqueuable) (r : row) : Prop :=
  exists uq s, eq_criteria e = Some uq
    /\ (forall k, uc_key uq = Some k -> r_uniqueness_key r = Some k)
    /\ (uc_executor uq = true -> eq_executor e = r_executor r)
    /\ In s (uc_statuses uq) /\ spelled s (r_status r)
    /\ (forall d, uc_duration uq = Some d ->
         eq_scheduled_at e - d <= r_scheduled_at r <= eq_scheduled_at e + d).

(** The requests agree on everything uniqueness depends on. *)
Definition alike (e e' : enqueuable) : Prop :=
  eq_criteria e' = eq_criteria e /\ eq_executor e' = eq_executor e /\ eq_scheduled_at e' = eq_scheduled_at e.

(** The row waits for a worker of [ex] and is due. *)
Definition row_due (now : time) (ex : string) (r : row) : Prop :=
  (r_status r = "scheduled"%string \/ r_status r = "retryable"%string) /\ r_executor r = ex
  /\ r_scheduled_at r - now < 100000000.
(** [a] is preferred to [b] by priority and then schedule. *)
Definition row_before (a b : row) : Prop :=
  r_priority a < r_priority b \/ (r_priority a = r_priority b /\ r_scheduled_at a < r_scheduled_at b).
(** Until call [i] has returned, row [r] stays as it is and nobody else locks it. *)
Fixpoint left_alone (ident : option Z -> option string -> list status -> Z) (i : nat) (r : row)
  (s : qstate) (ls : list qlabel) : Prop :=
  ((exists o res, finished s i o res)
   \/ (In r (t_rows (q_tbl s))
       /\ forall k c, k <> i -> nth_error (q_calls s) k = Some c -> ~ In (r_id r) (row_locks c)))
  /\ match ls with
     | [] => True
     | l :: ls' => left_alone ident i r (fst (qstep ident s l)) ls'
     end.

(** Nobody but call [i] holds a row or an advisory lock. *)
Definition undisturbed (ident : option Z -> option string -> list status -> Z) (i : nat) (s : qstate) : Prop :=
  forall k c, k <> i -> nth_error (q_calls s) k = Some c -> row_locks c = [] /\ advisory ident c = None.
(** The label advances a call. *)
Definition advances (l : qlabel) : Prop := match l with QRun _ _ _ => True | _ => False end.
(** Call [i] is a prune that keeps rows from others and has further rows to lock. *)
Definition torn (s : qstate) (i : nat) : Prop :=
  exists ps now taken rest, nth_error (q_calls s) i = Some (mk_qcall (OpPrune ps) (QDooming now taken rest))
    /\ taken <> [] /\ rest <> [].

(** The call that did it. *)
Definition doer (ev : qevent) : nat :=
  match ev with QvInsert i _ | QvWrite i _ _ _ | QvDelete i _ => i end.
(** No error is reported of call [i] once the server is done with it. *)
Definition answers_arrive (ident : option Z -> option string -> list status -> Z) (t : tbl) (ls : list qlabel) (i : nat) : Prop :=
  forall A e B, ls = A ++ QAbort i e :: B -> forall o r, ~ finished (qrun ident (opened t) A) i o r.
(** What must have happened for the answer [r] of call [i] of [o] to be true. *)
Definition achieved (i : nat) (o : mop) (r : mres) (tr : list qevent) : Prop :=
  match o with
  | OpLoad _ =>
      r = RJob (Ok None)
      \/ exists b a j, In (QvWrite i o b a) tr /\ represents a j /\ r = RJob (Ok (Some j))
  | OpPrune _ => exists rows, In (QvDelete i rows) tr
  | OpComplete id | OpRetryable id _ _ | OpDiscarded id _ | OpCancelled id _ | OpSnoozed id _ | OpRerun id =>
      exists b a, In (QvWrite i o b a) tr /\ r_id b = id
  | OpUpdate j => exists b a, In (QvWrite i o b a) tr /\ r_id b = j_id j
  | _ => True
  end.
(** The result is one that the operation can give. *)
Definition answer_fits (o : mop) (r : mres) : Prop :=
  match o with
  | OpEnqueue _ => exists x, r = RId x
  | OpLoad _ => exists x, r = RJob x
  | OpQuery _ => exists x, r = RJobs x
  | _ => exists x, r = RUnit x
  end.

(** The executors named by the specification. *)
Definition named (ps : prune_spec) (ex : string) : Prop :=
  match ps_executors ps with Except l => ~ In ex l | Only l => In ex l end.
Definition row_in_scope (ps : prune_spec) (r : row) : Prop :=
  spelled (ps_status ps) (r_status r) /\ named ps (r_executor r).
(** A prune that looks at these rows at [now] selects [r]: it is too old (finished statuses) or too
    far ahead (the others), or stands behind as many rows of the scope as are to be kept. *)
Definition row_prunable (now : time) (ps : prune_spec) (rows : list row) (r : row) : Prop :=
  In r rows /\ row_in_scope ps r /\
  match ps_by ps with
  | MaxAge d =>
      match ps_status ps with
      | Complete | Cancelled | Discarded => r_scheduled_at r < now - d
      | Scheduled | Retryable | Executing => now + d < r_scheduled_at r
      end
  | MaxLength n =>
      exists kept, length kept = Z.to_nat n /\ NoDup (map r_id kept) /\ forall x, In x kept ->
        In x rows /\ row_in_scope ps x /\ r_id x <> r_id r /\
        match ps_status ps with
        | Complete | Cancelled | Discarded => r_scheduled_at r <= r_scheduled_at x
        | Scheduled | Retryable | Executing => r_scheduled_at x <= r_scheduled_at r
        end
  end.

(** [a] is [b] with the fields selected by [rp] taken from the request, and nothing else. *)
Definition row_replaced (rp : replace_spec) (e : enqueuable) (b a : row) : Prop :=
  r_id a = r_id b /\ r_status a = r_status b /\ r_executor a = r_executor b /\ r_errors a = r_errors b
  /\ r_attempt a = r_attempt b /\ r_tags a = r_tags b /\ r_uniqueness_key a = r_uniqueness_key b
  /\ r_inserted_at a = r_inserted_at b /\ r_attempted_at a = r_attempted_at b /\ r_completed_at a = r_completed_at b
  /\ r_cancelled_at a = r_cancelled_at b /\ r_discarded_at a = r_discarded_at b
  /\ r_scheduled_at a = (if rp_scheduled_at rp then eq_scheduled_at e else r_scheduled_at b)
  /\ r_data a = (if rp_data rp then eq_data e else r_data b)
  /\ r_metadata a = (if rp_metadata rp then eq_metadata e else r_metadata b)
  /\ r_priority a = (if rp_priority rp then eq_priority e else r_priority b)
  /\ r_max_attempts a = (if rp_max_attempts rp then eq_max_attempts e else r_max_attempts b).
(** At some earlier action of call [i] row [id] conflicted with the request and was [ok]. *)
Definition sought (ident : option Z -> option string -> list status -> Z) (t : tbl) (ls : list qlabel)
  (i : nat) (e : enqueuable) (id : Z) (ok : row -> Prop) : Prop :=
  exists ls1 n p ls2 r, ls = ls1 ++ QRun i n p :: ls2 /\ In r (t_rows (q_tbl (qrun ident (opened t) ls1)))
    /\ r_id r = id /\ clashes e r /\ ok r.
(** The row has one of the statuses in which it may be replaced. *)
Definition replaceable (rp : replace_spec) (r : row) : Prop :=
  exists s, In s (rp_for_statuses rp) /\ spelled s (r_status r).
