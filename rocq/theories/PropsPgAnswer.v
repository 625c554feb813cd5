(** Properties of what the calls to the Postgres backend answer, however they overlap. *)
From Verif Require Import Base Chrono Types TypesProofs Query Memory MemSpec Samples MemWake Ticker PgRow PgQuery FxHash Pg PgSpec
  PgProofs PgOps PropsPg PgHist PgConc PgConcSpec PgConcProofs PgConcHist PgConcUniq PgConcLive PgConcPast PgConcEnd PropsPgConc.

(** * C87 Answers *)

(** A call gives an answer of its own kind, and does at most one thing. *)
Theorem C87_own_answer : forall ident t ls,
  sound_table t ->
  (forall i o r, finished (qrun ident (opened t) ls) i o r -> answer_fits o r)
  /\ (forall i, (length (filter (fun ev => Nat.eqb (doer ev) i) (qtrace ident (opened t) ls)) <= 1)%nat).
Proof. intros ident t ls Ht. split; [apply answers_fit, Ht|intro i; apply one_deed, Ht]. Qed.
Print Assumptions C87_own_answer.

(** Success is only reported by a call that did it. *)
Theorem C87_success : forall ident t ls i o r,
  sound_table t -> finished (qrun ident (opened t) ls) i o r -> ~ PgSpec.failed r ->
  achieved i o r (qtrace ident (opened t) ls).
Proof. intros ident t ls i o r Ht. apply success, Ht. Qed.
Print Assumptions C87_success.

(** A call that failed did nothing, unless it handed out a row that cannot be read, or its answer
    was lost. *)
Theorem C87_failure_partial : forall ident t ls i o r,
  sound_table t -> finished (qrun ident (opened t) ls) i o r -> PgSpec.failed r -> answers_arrive ident t ls i ->
  forall ev, In ev (qtrace ident (opened t) ls) -> doer ev = i ->
  exists ex b a, o = OpLoad ex /\ ev = QvWrite i o b a /\ forall j, ~ represents a j.
Proof.
  intros ident t ls i o r Ht Hf Hr Ha ev Hev <-. destruct (deeds ident t ls Ht ev Hev) as [c [r' [Hc [Hp H]]]].
  unfold finished in Hf. rewrite Hf in Hc. injection Hc as <-. cbn [qc_pc qc_op] in *. injection Hp as <-.
  destruct (H Ha Hr) as [ex [b [a [E1 [E2 E3]]]]]. exists ex, b, a. split; [exact E2|]. split; [rewrite E2; exact E1|exact E3].
Qed.
Print Assumptions C87_failure_partial.

(** A call that fails before the server is done answers with that error, and whatever it had locked
    is free again; the rows are as they were. *)
Theorem C87_error : forall ident t ls i c e,
  sound_table t ->
  let s := qrun ident (opened t) ls in
  nth_error (q_calls s) i = Some c ->
  exists r, finished (fst (qstep ident s (QAbort i e))) i (qc_op c) r
    /\ (r = RId (Err e) \/ r = RUnit (Err e) \/ r = RJob (Err e) \/ r = RJobs (Err e))
    /\ q_tbl (fst (qstep ident s (QAbort i e))) = q_tbl s
    /\ (forall c', nth_error (q_calls (fst (qstep ident s (QAbort i e)))) i = Some c' -> row_locks c' = [] /\ advisory ident c' = None)
    /\ snd (qstep ident s (QAbort i e)) = []
    /\ forall k, k <> i -> nth_error (q_calls (fst (qstep ident s (QAbort i e)))) k = nth_error (q_calls s) k.
Proof.
  intros ident t ls i c e Ht s Hc. cbn [qstep]. rewrite Hc. cbn [fst snd q_calls q_tbl]. exists (PgConc.failed (qc_op c) e).
  unfold finished. cbn [q_calls]. rewrite set_nth_nth, Nat.eqb_refl, Hc. split; [reflexivity|].
  split; [destruct (qc_op c); cbn; auto|]. split; [reflexivity|].
  split; [intros c' E; injection E as <-; split; [reflexivity|unfold advisory; cbn [qc_op qc_pc]; destruct (qc_op c); reflexivity]|].
  split; [reflexivity|]. intros k Hk. rewrite set_nth_nth. destruct (Nat.eqb_spec i k) as [->|_]; [contradiction|reflexivity].
Qed.
Print Assumptions C87_error.

(** In full: a caller told of a failure finds nothing done.  It is false: the connection may break
    after the commit.  The job is then enqueued although the caller was told otherwise, and enqueuing
    it again makes two. *)
Definition ls_broken : list qlabel :=
  [QCall (OpEnqueue (req mail 2 (5 * ms)))] ++ run_i 0 1 2 ++ [QAbort 0 Io]
  ++ [QCall (OpEnqueue (req mail 2 (5 * ms)))] ++ run_i 1 1 2.
Theorem C87_failure_refuted : exists t ls e i r,
  sound_table t /\ finished (qrun fx_identifier (opened t) ls) i (OpEnqueue e) (RId (Err Io))
  /\ In (QvInsert i r) (qtrace fx_identifier (opened t) ls)
  /\ (exists j, represents r j) /\ map r_id (t_rows (q_tbl (qrun fx_identifier (opened t) ls))) = [1; 2].
Proof.
  exists tbl_init, ls_broken, (req mail 2 (5 * ms)), 0%nat. eexists. split; [apply sound_init|]. split; [vm_compute; reflexivity|].
  split; [vm_compute; left; reflexivity|]. split; [|vm_compute; reflexivity]. eexists. apply represents_iff. vm_compute. reflexivity.
Qed.
Print Assumptions C87_failure_refuted.

(** A report that waits for a prune and comes too late, one that fails, and one that succeeds. *)
Definition ls_answers : list qlabel :=
  [QCall (OpPrune (mk_prune_spec Complete (MaxLength 1) (Except []))); QCall (OpRerun 1); QCall (OpSnoozed 2 (9 * ms)); QCall (OpLoad mail);
   QCall (OpRerun 2)]
  ++ run_i 0 50 2 ++ run_i 1 51 1 ++ run_i 0 52 1 ++ run_i 1 53 1 ++ run_i 2 54 1 ++ [QAbort 2 Io] ++ run_i 4 54 2 ++ run_i 3 55 3.
Example C87_example :
  let s := qrun fx_identifier (opened t_over) ls_answers in
  finished s 0 (OpPrune (mk_prune_spec Complete (MaxLength 1) (Except []))) (RUnit (Ok tt))
  /\ finished s 1 (OpRerun 1) (RUnit (Err (JobNotFound 1)))
  /\ finished s 2 (OpSnoozed 2 (9 * ms)) (RUnit (Err Io))
  /\ finished s 4 (OpRerun 2) (RUnit (Ok tt))
  /\ (exists j, finished s 3 (OpLoad mail) (RJob (Ok (Some j))) /\ j_id j = 2)
  /\ map doer (qtrace fx_identifier (opened t_over) ls_answers) = [0; 4; 3]%nat
  /\ answers_arrive fx_identifier t_over ls_answers 2.
Proof.
  cbv zeta. repeat (split; [vm_compute; reflexivity|]). split; [eexists; split; vm_compute; reflexivity|]. split; [vm_compute; reflexivity|].
  intros A e B E o r Hf.
  assert (Hn : nth_error ls_answers (length A) = Some (QAbort 2 e)) by (rewrite E, nth_error_app2, Nat.sub_diag; [reflexivity|lia]).
  assert (HA : A = firstn (length A) ls_answers) by (rewrite E, firstn_app, Nat.sub_diag, firstn_O, app_nil_r, firstn_all; reflexivity).
  rewrite HA in Hf. clear HA E. remember (length A) as n eqn:En. clear En.
  do 11 (destruct n as [|n]; [discriminate Hn|]). destruct n as [|n]; [vm_compute in Hf; discriminate Hf|].
  do 6 (destruct n as [|n]; [discriminate Hn|]). discriminate Hn.
Qed.
