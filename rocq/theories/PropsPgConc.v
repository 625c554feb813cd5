(** Properties of the Postgres backend used by several callers at once.  Every theorem is about all
    executions from a table as the database keeps it: any calls, in any order, advanced in any order,
    any of them failing at any moment. *)
From Verif Require Import Base Chrono Types TypesProofs Query Memory MemSpec Samples MemWake Ticker PgRow PgQuery FxHash Pg PgSpec
  PgProofs PgOps PropsPg PgHist PgConc PgConcSpec PgConcProofs PgConcHist PgConcUniq PgConcLive PgConcPast.

(** * Samples *)

Lemma sound_init : sound_table tbl_init.
Proof. split; [constructor|]. split; [intros r []|cbn; lia]. Qed.
Lemma sound_sample : sound_table t_sample.
Proof.
  unfold sound_table. assert (E : map r_id (t_rows t_sample) = [1; 2; 3]) by (vm_compute; reflexivity).
  assert (En : t_next t_sample = 4) by (vm_compute; reflexivity). rewrite En. split.
  - rewrite E. repeat constructor; cbn; intuition discriminate.
  - split; [|lia]. intros r Hr. apply (in_map r_id) in Hr. rewrite E in Hr. cbn in Hr. lia.
Qed.
Definition run_i (i : nat) (k : Z) (n : nat) : list qlabel := repeat (QRun i (k * ms) 0) n.

(** * C53 Hand-outs *)

(** Between two hand-outs of the same row somebody has made it wait again. *)
Theorem C53_exclusive : forall ident t ls id A e1 B e2 C,
  sound_table t -> qtrace ident (opened t) ls = A ++ e1 :: B ++ e2 :: C -> takes id e1 -> takes id e2 ->
  exists ev, In ev B /\ frees id ev.
Proof. intros ident t ls id A e1 B e2 C. apply exclusive. Qed.
Print Assumptions C53_exclusive.

(** Two workers, one of which looks while the other holds the row; then a retry, and a second
    hand-out. *)
Definition ls_two : list qlabel :=
  [QCall (OpEnqueue (req mail 2 (5 * ms)))] ++ run_i 0 1 2
  ++ [QCall (OpLoad mail); QCall (OpLoad mail)] ++ run_i 1 6 2 ++ run_i 2 6 3 ++ run_i 1 7 1
  ++ [QCall (OpRetryable 1 (8 * ms) boom)] ++ run_i 3 8 2
  ++ [QCall (OpLoad mail)] ++ run_i 4 9 3.
Example C53_exclusive_sample : exists A e1 B e2 C,
  qtrace fx_identifier (opened tbl_init) ls_two = A ++ e1 :: B ++ e2 :: C /\ takes 1 e1 /\ takes 1 e2
  /\ finished (qrun fx_identifier (opened tbl_init) ls_two) 2 (OpLoad mail) (RJob (Ok None)).
Proof.
  destruct (qtrace fx_identifier (opened tbl_init) ls_two) as [|x [|e1 [|y [|e2 [|z l]]]]] eqn:E; vm_compute in E; try discriminate E.
  exists [x], e1, [y], e2, []. injection E as <- <- <- <-. split; [reflexivity|]. split; [reflexivity|]. split; [reflexivity|].
  vm_compute. reflexivity.
Qed.

(** What a worker is given was waiting and due when its transaction began, at a moment of this call;
    the row becomes that job, executing, and nothing else changes. *)
Theorem C53_right : forall ident t ls i now pick ex b a,
  sound_table t ->
  let s := qrun ident (opened t) ls in
  let s' := fst (qstep ident s (QRun i now pick)) in
  In (QvWrite i (OpLoad ex) b a) (snd (qstep ident s (QRun i now pick))) ->
  exists began p, In (QRun i began p) ls /\ In b (t_rows (q_tbl s)) /\
    (kept_time began -> row_due began ex b
       /\ forall j, represents b j -> -2147483648 <= j_attempt j < 2147483647 ->
            represents a (after_hand_out began j) /\ finished s' i (OpLoad ex) (RJob (Ok (Some (after_hand_out began j)))))
    /\ exists pre post, t_rows (q_tbl s) = pre ++ b :: post /\ t_rows (q_tbl s') = pre ++ a :: post.
Proof.
  intros ident t ls i now pick ex b a Ht s s' Hev.
  destruct (take_right ident t ls i now pick ex b a Ht Hev) as [began [Hc [Hb [Hr [Htk [pre [post [E1 E2]]]]]]]].
  destruct (began_label ident t ls i _ began Hc eq_refl) as [p Hp]. exists began, p. split; [exact Hp|]. split; [exact Hb|]. split.
  - intro Hk. split; [apply ready_due; assumption|]. intros j Hj Ha. destruct (take_represents began b j Hk Hj Ha) as [a' [E3 Hrep]].
    rewrite Htk in E3. injection E3 as <-. split; [exact Hrep|]. unfold s', s. rewrite E2. unfold finished. cbn [q_calls].
    rewrite set_nth_nth, Nat.eqb_refl, Hc. apply represents_iff in Hrep. rewrite Hrep. reflexivity.
  - exists pre, post. split; [exact E1|]. unfold s', s. rewrite E2. reflexivity.
Qed.
Print Assumptions C53_right.

Definition ls_three : list qlabel :=
  [QCall (OpEnqueue (req mail 2 (5 * ms))); QCall (OpEnqueue (req mail 1 (9 * ms)))] ++ run_i 0 1 2 ++ run_i 1 2 2
  ++ [QCall (OpLoad mail); QCall (OpLoad mail)] ++ run_i 2 10 2 ++ run_i 3 11 3.
Example C53_right_sample : exists b a,
  In (QvWrite 3 (OpLoad mail) b a)
     (snd (qstep fx_identifier (qrun fx_identifier (opened tbl_init) ls_three) (QRun 3 (11 * ms) 0)))
  /\ r_id b = 1 /\ job_of_row b <> Err BadState.
Proof.
  destruct (snd (qstep fx_identifier (qrun fx_identifier (opened tbl_init) ls_three) (QRun 3 (11 * ms) 0))) as [|[| i o b a|] [|y l]] eqn:E;
    vm_compute in E; try discriminate E.
  exists b, a. injection E as <- <- <- <-. split; [left; reflexivity|]. split; [reflexivity|]. vm_compute. discriminate.
Qed.

(** A worker that looks while a due row is left alone by everybody else does not come back empty
    handed, nor with a row that this one is preferred to. *)
Theorem C53_best_first : forall ident t ls0 i ex now pick r ls res,
  sound_table t ->
  let s := qrun ident (opened t) ls0 in
  kept_time now -> clean ex ->
  nth_error (q_calls s) i = Some (mk_qcall (OpLoad ex) QStart) ->
  In r (t_rows (q_tbl s)) -> row_due now ex r ->
  left_alone ident i r s (QRun i now pick :: ls) ->
  finished (qrun ident s (QRun i now pick :: ls)) i (OpLoad ex) res ->
  res <> RJob (Ok None) /\
  forall j, res = RJob (Ok (Some j)) ->
    exists b, In b (t_rows (q_tbl s)) /\ r_id b = j_id j /\ row_due now ex b /\ ~ row_before r b.
Proof. intros ident t ls0 i ex now pick r ls res Ht s. apply best_first. apply run_inv, inv_opened, Ht. Qed.
Print Assumptions C53_best_first.

Definition ls_look : list qlabel :=
  [QCall (OpEnqueue (req mail 2 (5 * ms))); QCall (OpEnqueue (req mail 1 (9 * ms)))] ++ run_i 0 1 2 ++ run_i 1 2 2
  ++ [QCall (OpLoad mail)].
Example C53_best_first_sample :
  let s := qrun fx_identifier (opened tbl_init) ls_look in
  exists r j, nth_error (q_calls s) 2 = Some (mk_qcall (OpLoad mail) QStart) /\ In r (t_rows (q_tbl s))
    /\ row_due (10 * ms) mail r /\ r_id r = 2 /\ left_alone fx_identifier 2 r s (run_i 2 10 3)
    /\ finished (qrun fx_identifier s (run_i 2 10 3)) 2 (OpLoad mail) (RJob (Ok (Some j))) /\ j_id j = 2.
Proof.
  destruct (t_rows (q_tbl (qrun fx_identifier (opened tbl_init) ls_look))) as [|x [|r [|y l]]] eqn:E; vm_compute in E; try discriminate E.
  injection E as <- <-. eexists _, _. split; [vm_compute; reflexivity|]. split; [vm_compute; right; left; reflexivity|].
  split; [split; [left; reflexivity|split; [reflexivity|cbn; unfold ms; lia]]|]. split; [reflexivity|]. split.
  - cbn [run_i repeat left_alone]. 
    assert (Hl : forall s, forallb (fun c => match row_locks c with [] => true | _ => false end) (firstn 2 (q_calls s) ++ skipn 3 (q_calls s)) = true ->
      forall id k c, k <> 2%nat -> nth_error (q_calls s) k = Some c -> ~ In id (row_locks c)).
    { intros s H id k c Hk Hc Hin. rewrite forallb_forall in H.
      assert (Hx : In c (firstn 2 (q_calls s) ++ skipn 3 (q_calls s))).
      { rewrite <- (firstn_skipn 2 (q_calls s)) in Hc. destruct (q_calls s) as [|a [|b [|d cs]]]; cbn in *.
        - destruct k; discriminate.
        - destruct k as [|[|k]]; cbn in Hc; try discriminate. injection Hc as <-. auto.
        - destruct k as [|[|[|k]]]; cbn in Hc; try discriminate; injection Hc as <-; auto.
        - destruct k as [|[|[|k]]]; cbn in Hc; try (injection Hc as <-; auto; fail); [lia|]. right. right. eapply nth_error_In. exact Hc. }
      specialize (H c Hx). destruct (row_locks c); [destruct Hin|discriminate]. }
    split; [right; split; [vm_compute; right; left; reflexivity|apply Hl; vm_compute; reflexivity]|].
    split; [right; split; [vm_compute; right; left; reflexivity|apply Hl; vm_compute; reflexivity]|].
    split; [right; split; [vm_compute; right; left; reflexivity|apply Hl; vm_compute; reflexivity]|].
    split; [|exact I]. left. eexists _, _. vm_compute. reflexivity.
  - split; [vm_compute; reflexivity|reflexivity].
Qed.

(** * C03 Rows stay *)

(** A row is there until a prune deletes it. *)
Theorem C03_never_lost_postgres : forall ident t ls id,
  sound_table t -> In id (map r_id (t_rows t)) ->
  (exists ev, In ev (qtrace ident (opened t) ls) /\ deletes id ev)
  \/ In id (map r_id (t_rows (q_tbl (qrun ident (opened t) ls)))).
Proof. intros ident t ls id Ht Hin. apply stays; [apply inv_opened, Ht|exact Hin]. Qed.
Print Assumptions C03_never_lost_postgres.

(** So is a row inserted in the course of it. *)
Theorem C03_inserted_stays_postgres : forall ident t ls1 ls2 i r,
  sound_table t -> In (QvInsert i r) (qtrace ident (opened t) ls1) ->
  (exists ev, In ev (qtrace ident (opened t) (ls1 ++ ls2)) /\ deletes (r_id r) ev)
  \/ In (r_id r) (map r_id (t_rows (q_tbl (qrun ident (opened t) (ls1 ++ ls2))))).
Proof.
  intros ident t ls1 ls2 i r Ht Hin. apply in_split in Hin. destruct Hin as [A [B E]].
  destruct (trace_split ident ls1 _ A _ B E (inv_opened _ Ht)) as [l1 [l [l2 [-> [_ [Hev _]]]]]].
  assert (Hinv : qinv (qrun ident (opened t) l1)) by (apply run_inv, inv_opened, Ht).
  destruct (insert_step ident _ l i r Hinv Hev) as [c [e [key [now [_ [_ [_ [_ [Hr _]]]]]]]]].
  destruct (stays ident (l2 ++ ls2) _ (r_id r) (step_inv ident _ l Hinv) (in_map r_id _ _ Hr)) as [[ev [H1 H2]]|H].
  - left. exists ev. split; [|exact H2]. rewrite <- app_assoc, qtrace_app. apply in_or_app. right. cbn [app qtrace]. apply in_or_app. right. exact H1.
  - right. rewrite <- app_assoc, qrun_app. cbn [app qrun]. exact H.
Qed.
Print Assumptions C03_inserted_stays_postgres.
Example C03_inserted_stays_sample : exists r,
  In (QvInsert 0 r) (qtrace fx_identifier (opened tbl_init) ls_look) /\ r_id r = 1.
Proof. eexists. split; [vm_compute; left; reflexivity|reflexivity]. Qed.
Example C03_never_lost_postgres_sample : In 2 (map r_id (t_rows t_sample)).
Proof. vm_compute. tauto. Qed.

(** * C70 Pruning while others work *)

(** Whatever is deleted is deleted by a prune, and that prune's condition held of the row with that
    id when the prune looked. *)
Theorem C70_prune_overlapping_partial : forall ident t ls i rows,
  sound_table t -> In (QvDelete i rows) (qtrace ident (opened t) ls) ->
  exists ls1 now p ls2 ps, ls = ls1 ++ QRun i now p :: ls2
    /\ (exists c, nth_error (q_calls (qrun ident (opened t) ls)) i = Some c /\ qc_op c = OpPrune ps)
    /\ (kept_cutoff now ps -> forall r, In r rows ->
          exists r0, r_id r0 = r_id r /\ row_prunable now ps (t_rows (q_tbl (qrun ident (opened t) ls1))) r0).
Proof. intros ident t ls i rows. apply deletes_past. Qed.
Print Assumptions C70_prune_overlapping_partial.

(** Missing: that it still holds when the row is deleted.  It need not: a prune of scheduled jobs
    deletes a job that has been handed out to a worker since it looked. *)
Definition far_ahead : prune_spec := mk_prune_spec Scheduled (MaxLength 0) (Except []).
Definition ls_race : list qlabel :=
  [QCall (OpEnqueue (req mail 2 (5 * ms)))] ++ run_i 0 1 2
  ++ [QCall (OpLoad mail)] ++ run_i 1 6 2 ++ [QCall (OpPrune far_ahead)] ++ run_i 2 6 1 ++ run_i 1 6 1 ++ run_i 2 6 2.
Theorem C70_prune_overlapping_refuted : exists t ls i rows r,
  sound_table t /\ In (QvDelete i rows) (qtrace fx_identifier (opened t) ls) /\ In r rows
  /\ (exists ps, nth_error (q_calls (qrun fx_identifier (opened t) ls)) i = Some (mk_qcall (OpPrune ps) (QDone (RUnit (Ok tt))))
        /\ ps_status ps = Scheduled)
  /\ r_status r = "executing"%string
  /\ exists k j, finished (qrun fx_identifier (opened t) ls) k (OpLoad mail) (RJob (Ok (Some j))) /\ j_id j = r_id r.
Proof.
  destruct (qtrace fx_identifier (opened tbl_init) ls_race) as [|x [|y [|[| |i rows] [|w l]]]] eqn:E; vm_compute in E; try discriminate E.
  exists tbl_init, ls_race, i, rows. destruct rows as [|r [|r' rows]]; try discriminate E. exists r.
  split; [exact sound_init|]. injection E as <- <- <- <-. split; [vm_compute; right; right; left; reflexivity|]. split; [left; reflexivity|].
  split; [exists far_ahead; split; [vm_compute; reflexivity|reflexivity]|]. split; [reflexivity|].
  exists 1%nat. eexists. split; [vm_compute; reflexivity|reflexivity].
Qed.
Print Assumptions C70_prune_overlapping_refuted.

(** * C63 Ids *)

(** Rows inserted by overlapping calls have different ids, none of which the table had before. *)
Theorem C63_ids_overlapping : forall ident t ls,
  sound_table t ->
  NoDup (map r_id (inserts (qtrace ident (opened t) ls)))
  /\ (forall r, In r (inserts (qtrace ident (opened t) ls)) -> t_next t <= r_id r)
  /\ NoDup (map r_id (t_rows (q_tbl (qrun ident (opened t) ls)))).
Proof.
  intros ident t ls Ht. destruct (inserts_fresh ident ls _ (inv_opened _ Ht)) as [H1 H2]. split; [exact H1|]. split.
  - intros r Hr. destruct (H2 r Hr) as [H|[i [c [Hc _]]]]; [exact H|]. destruct i; discriminate Hc.
  - exact (iv_nodup _ (run_inv ident ls _ (inv_opened _ Ht))).
Qed.
Print Assumptions C63_ids_overlapping.
(** Two inserts that draw before either commits, and commit the other way round. *)
Example C63_ids_overlapping_sample :
  map r_id (inserts (qtrace fx_identifier (opened t_sample)
    ([QCall (OpEnqueue (req mail 2 (5 * ms))); QCall (OpEnqueue (req mail 1 (9 * ms)))] ++ run_i 0 1 1 ++ run_i 1 2 2 ++ run_i 0 3 1))) = [5; 4].
Proof. vm_compute. reflexivity. Qed.

(** An enqueue that returns an id without criteria has inserted the row with that id; one with
    criteria has inserted it, or found it conflicting at some moment of the call. *)
Theorem C63_returned_id_overlapping : forall ident t ls i e id,
  sound_table t -> kept_request e -> kept_window e ->
  finished (qrun ident (opened t) ls) i (OpEnqueue e) (RId (Ok id)) ->
  (exists r, In (QvInsert i r) (qtrace ident (opened t) ls) /\ r_id r = id)
  \/ sought ident t ls i e id (fun _ => True).
Proof.
  intros ident t ls i e id Ht He Hw Hf. destruct (eq_criteria e) as [uq|] eqn:Huq.
  - exact (found_past ident t ls i e uq _ Huq Hw He Hf).
  - left. exact (plain_past ident t ls i e id Huq Hf).
Qed.
Print Assumptions C63_returned_id_overlapping.

(** * C14, C16 Attempts and errors *)

(** In overlapping use too, a row's attempt counts its hand-outs less its snoozes. *)
Theorem C14_attempts_overlapping_postgres : forall ident t ls b a,
  sound_table t -> In b (t_rows t) -> In a (t_rows (q_tbl (qrun ident (opened t) ls))) -> r_id a = r_id b ->
  r_attempt a = r_attempt b + total (map (attempts_made (r_id b)) (qtrace ident (opened t) ls)).
Proof.
  intros ident t ls b a Ht Hb Ha Hid. pose proof (inv_opened _ Ht) as Hi.
  apply (account ident ls (opened t) (r_id b) b a Hi).
  - apply find_row_in; [exact (iv_nodup _ Hi)|exact Hb].
  - rewrite <- Hid. apply find_row_in; [exact (iv_nodup _ (run_inv ident ls _ Hi))|exact Ha].
Qed.
Print Assumptions C14_attempts_overlapping_postgres.

(** And its errors are one entry for each failure reported, in order, after those it had. *)
Theorem C16_errors_overlapping_postgres : forall ident t ls b a,
  sound_table t -> In b (t_rows t) -> In a (t_rows (q_tbl (qrun ident (opened t) ls))) -> r_id a = r_id b ->
  exists new, r_errors a = r_errors b ++ new
    /\ map (fun x => (se_attempt x, se_details x)) new = flat_map (failures (r_id b)) (qtrace ident (opened t) ls).
Proof.
  intros ident t ls b a Ht Hb Ha Hid. pose proof (inv_opened _ Ht) as Hi.
  apply (account ident ls (opened t) (r_id b) b a Hi).
  - apply find_row_in; [exact (iv_nodup _ Hi)|exact Hb].
  - rewrite <- Hid. apply find_row_in; [exact (iv_nodup _ (run_inv ident ls _ Hi))|exact Ha].
Qed.
Print Assumptions C16_errors_overlapping_postgres.
(** A retry and a cancellation of the same row, in flight together. *)
Definition ls_reports : list qlabel :=
  [QCall (OpRetryable 2 (20 * ms) boom); QCall (OpCancelled 2 stop)] ++ run_i 0 10 1 ++ run_i 1 10 1 ++ run_i 0 11 1 ++ run_i 1 11 2
  ++ [QCall (OpLoad mail)] ++ run_i 2 30 3.
Example C14_C16_overlapping_sample :
  flat_map (failures 2) (qtrace fx_identifier (opened t_sample) ls_reports) = [(2, "boom"%string); (2, "not needed"%string)]
  /\ map (attempts_made 1) (qtrace fx_identifier (opened t_sample) ls_reports) = [0; 0; 1]
  /\ map r_id (t_rows t_sample) = [1; 2; 3]
  /\ map r_id (t_rows (q_tbl (qrun fx_identifier (opened t_sample) ls_reports))) = [1; 2; 3].
Proof. vm_compute. repeat split. Qed.

(** * C13 Reports are not torn *)

(** Each change made by an update by id is the whole of one operation executed by itself on the table
    of that moment, with its result. *)
Theorem C13_reports_serial_postgres : forall ident t ls i o b a id,
  sound_table t -> target o = Some id -> In (QvWrite i o b a) (qtrace ident (opened t) ls) ->
  exists ls1 now p ls2 n res, ls = ls1 ++ QRun i now p :: ls2
    /\ (exists q, In (QRun i n q) ls1)
    /\ pg_step ident n (q_tbl (qrun ident (opened t) ls1)) o = (q_tbl (qrun ident (opened t) (ls1 ++ [QRun i now p])), res)
    /\ In b (t_rows (q_tbl (qrun ident (opened t) ls1)))
    /\ In a (t_rows (q_tbl (qrun ident (opened t) (ls1 ++ [QRun i now p]))))
    /\ finished (qrun ident (opened t) (ls1 ++ [QRun i now p])) i o res.
Proof. intros ident t ls i o b a id. apply report_serial. Qed.
Print Assumptions C13_reports_serial_postgres.
Example C13_reports_serial_sample : exists b a,
  In (QvWrite 1 (OpCancelled 2 stop) b a) (qtrace fx_identifier (opened t_sample) ls_reports).
Proof. eexists _, _. vm_compute. right. left. reflexivity. Qed.

(** * C08 Uniqueness *)

(** Callers of one and the same unique job, however many and however they overlap or fail: one of
    them at most inserts, and everybody who is given an id is given that one. *)
Theorem C08_one_insert_postgres : forall ident t ls e uq,
  sound_table t -> eq_criteria e = Some uq -> uc_key uq = None -> In Scheduled (uc_statuses uq) ->
  (forall d, uc_duration uq = Some d -> 0 <= d) -> kept_window e ->
  (forall r, In r (t_rows t) -> ~ clashes e r) ->
  (forall o, In (QCall o) ls -> exists e', o = OpEnqueue e' /\ alike e e' /\ kept_request e') ->
  (inserts (qtrace ident (opened t) ls) = []
     /\ forall i o id, ~ finished (qrun ident (opened t) ls) i o (RId (Ok id)))
  \/ exists r, inserts (qtrace ident (opened t) ls) = [r]
       /\ In (r_id r) (map r_id (t_rows (q_tbl (qrun ident (opened t) ls))))
       /\ forall i o id, finished (qrun ident (opened t) ls) i o (RId (Ok id)) -> id = r_id r.
Proof.
  intros ident t ls e uq Ht Huq Hkey Hst Hd Hw Hno Hl. apply inv_opened in Ht.
  assert (Hnil : forall i c, nth_error (q_calls (opened t)) i = Some c -> False) by (intros [|i] c H; discriminate).
  destruct (family_run ident e uq Huq Hkey Hst Hd Hw ls (opened t) Ht (apart_opened ident t)) as [[[_ Hb] Hi]|[r [Hi [[x [Hx _]] [_ Ha]]]]].
  - intros i c Hc. destruct (Hnil i c Hc).
  - split; [exact Hno|]. intros i c Hc. destruct (Hnil i c Hc).
  - exact Hl.
  - left. split; [exact Hi|]. intros i o id Hf. exact (Hb i _ Hf).
  - right. exists r. split; [exact Hi|]. split; [apply find_row_some in Hx; destruct Hx as [H1 <-]; apply in_map, H1|].
    intros i o id Hf. exact (Ha i _ Hf).
Qed.
Print Assumptions C08_one_insert_postgres.

Definition once_spec : criteria := mk_criteria None true (Some (3 * ms)) [Scheduled; Executing] DoNothing.
(** Three callers; the second fails while it holds the lock; the first and third overlap. *)
Definition ls_once : list qlabel :=
  [QCall (OpEnqueue (ureq mail 0 (50 * ms) once_spec)); QCall (OpEnqueue (ureq mail 4 (50 * ms) once_spec));
   QCall (OpEnqueue (ureq mail 0 (50 * ms) once_spec))]
  ++ run_i 1 1 3 ++ run_i 0 1 3 ++ [QAbort 1 Io] ++ run_i 0 1 1 ++ run_i 2 1 3 ++ run_i 0 1 3 ++ run_i 2 1 3.
Example C08_one_insert_postgres_sample :
  (forall r, In r (t_rows t_sample) -> ~ clashes (ureq mail 0 (50 * ms) once_spec) r)
  /\ map r_id (inserts (qtrace fx_identifier (opened t_sample) ls_once)) = [4]
  /\ finished (qrun fx_identifier (opened t_sample) ls_once) 2 (OpEnqueue (ureq mail 0 (50 * ms) once_spec)) (RId (Ok 4)).
Proof.
  split; [|split; vm_compute; reflexivity]. intros r Hr [uq [s [E [_ [_ [_ [_ Hd]]]]]]]. injection E as <-. specialize (Hd _ eq_refl).
  list_in Hr. cbn [ureq eq_scheduled_at] in Hd. unfold ms in Hd. repeat (destruct Hr as [<-|Hr]; [cbn [r_scheduled_at] in Hd; lia|]). destruct Hr.
Qed.

(** More generally: a second row is inserted next to one it conflicts with, under the same lock, only
    if the first has been changed or deleted in between. *)
Theorem C08_no_two_inserts_postgres : forall ident t ls i j e1 e2 uq1 uq2 r1 r2 A B C c1 c2,
  sound_table t ->
  qtrace ident (opened t) ls = A ++ QvInsert i r1 :: B ++ QvInsert j r2 :: C ->
  nth_error (q_calls (qrun ident (opened t) ls)) i = Some c1 -> qc_op c1 = OpEnqueue e1 ->
  nth_error (q_calls (qrun ident (opened t) ls)) j = Some c2 -> qc_op c2 = OpEnqueue e2 ->
  eq_criteria e1 = Some uq1 -> eq_criteria e2 = Some uq2 ->
  ident (uc_key uq1) (if uc_executor uq1 then Some (eq_executor e1) else None) (uc_statuses uq1)
  = ident (uc_key uq2) (if uc_executor uq2 then Some (eq_executor e2) else None) (uc_statuses uq2) ->
  kept_window e2 -> kept_request e2 -> clashes e2 r1 ->
  exists ev, In ev B /\ spoils (clashes e2) (r_id r1) ev.
Proof. intros ident t ls i j e1 e2 uq1 uq2 r1 r2 A B C c1 c2. apply no_two_inserts. Qed.
Print Assumptions C08_no_two_inserts_postgres.

(** Two requests 2 ms apart; the first job is finished before the second request. *)
Definition ls_again : list qlabel :=
  [QCall (OpEnqueue (ureq mail 0 (50 * ms) once_spec)); QCall (OpEnqueue (ureq mail 0 (52 * ms) once_spec));
   QCall (OpComplete 4)] ++ run_i 0 1 5 ++ run_i 2 2 2 ++ run_i 1 3 5.
Example C08_no_two_inserts_sample : exists r1 ev r2,
  qtrace fx_identifier (opened t_sample) ls_again = [] ++ QvInsert 0 r1 :: [ev] ++ QvInsert 1 r2 :: []
  /\ clashes (ureq mail 0 (52 * ms) once_spec) r1.
Proof.
  destruct (qtrace fx_identifier (opened t_sample) ls_again) as [|[i r1| |] [|ev [|[j r2| |] [|x l]]]] eqn:E; vm_compute in E; try discriminate E.
  exists r1, ev, r2. injection E as <- <- <- <- <-. split; [reflexivity|]. exists once_spec, Scheduled. split; [reflexivity|].
  split; [discriminate|]. split; [reflexivity|]. split; [left; reflexivity|]. split; [constructor|]. intros d Hd. injection Hd as <-.
  cbn. unfold ms. lia.
Qed.

(** * C69 Replacement *)

(** A unique enqueue that changes a row changes the fields it selects, to its own values, and nothing
    else; and at some moment of the call the row conflicted with it and had a status in which it may
    be replaced. *)
Theorem C69_replacement_overlapping_partial : forall ident t ls i e b a,
  sound_table t -> kept_request e -> kept_window e ->
  In (QvWrite i (OpEnqueue e) b a) (qtrace ident (opened t) ls) ->
  exists uq rp, eq_criteria e = Some uq /\ uc_on_conflict uq = Replace rp /\ row_replaced rp e b a
    /\ sought ident t ls i e (r_id b) (replaceable rp).
Proof.
  intros ident t ls i e b a Ht He Hw Hin. destruct (replacement_write ident t ls i e b a Ht Hin) as [uq [rp [H1 [H2 [H3 H4]]]]].
  exists uq, rp. auto.
Qed.
Print Assumptions C69_replacement_overlapping_partial.

(** Missing: that it has such a status when it is changed.  It need not: a job is rescheduled, and
    its data replaced, after a worker was given it. *)
Definition swap_spec : criteria :=
  mk_criteria None true None [Scheduled] (Replace (mk_replace true true false false false [Scheduled])).
Definition ls_swap : list qlabel :=
  [QCall (OpEnqueue (req mail 2 (5 * ms)))] ++ run_i 0 1 2
  ++ [QCall (OpEnqueue (ureq mail 0 (50 * ms) swap_spec))] ++ run_i 1 6 3
  ++ [QCall (OpLoad mail)] ++ run_i 2 6 3 ++ run_i 1 7 2.
Theorem C69_replacement_overlapping_refuted : exists t ls i e uq rp b a,
  sound_table t /\ kept_request e /\ kept_window e /\ eq_criteria e = Some uq /\ uc_on_conflict uq = Replace rp
  /\ In (QvWrite i (OpEnqueue e) b a) (qtrace fx_identifier (opened t) ls)
  /\ ~ replaceable rp b /\ ~ clashes e b /\ r_status b = "executing"%string /\ r_data a <> r_data b.
Proof.
  destruct (qtrace fx_identifier (opened tbl_init) ls_swap) as [|x [|y [|[|i o b a|] [|w l]]]] eqn:E; vm_compute in E; try discriminate E.
  exists tbl_init, ls_swap, 1%nat, (ureq mail 0 (50 * ms) swap_spec), swap_spec, (mk_replace true true false false false [Scheduled]), b, a.
  injection E as <- <- <- <- <- <-. split; [exact sound_init|].
  split; [split; [apply clean_by_storable; reflexivity|]; split; [apply json_storable_clean; reflexivity|]; split; [apply json_storable_clean; reflexivity|];
    split; [apply kept_ms; lia|constructor]|].
  split; [intros u d Hu Hd; injection Hu as <-; discriminate|]. split; [reflexivity|]. split; [reflexivity|].
  split; [vm_compute; right; right; left; reflexivity|].
  split; [intros [s [[<-|[]] Hs]]; apply spelled_label in Hs; discriminate|].
  split; [intros [uq [s [Hu [_ [_ [Hin [Hs _]]]]]]]; injection Hu as <-; destruct Hin as [<-|[]]; apply spelled_label in Hs; discriminate|].
  split; [reflexivity|discriminate].
Qed.
Print Assumptions C69_replacement_overlapping_refuted.

(** * C67 Nobody waits for ever *)

(** From any state of overlapping use, the calls in progress can all return, without a new call and
    without any being made to fail, unless several prunes each hold a row and have more to lock: of
    these Postgres may have to end some, and of no others. *)
Theorem C67_can_finish : forall ident t ls,
  sound_table t ->
  let s := qrun ident (opened t) ls in
  exists gone ls',
    (forall i, In i gone -> torn s i) /\ Forall advances ls'
    /\ all_finished (qrun ident s (map (fun i => QAbort i BadState) gone ++ ls'))
    /\ ((forall i k, torn s i -> torn s k -> i = k) -> gone = []).
Proof.
  intros ident t ls Ht s. apply inv_opened in Ht.
  apply can_finish; [apply run_inv, Ht|apply tidy_run; [exact Ht|apply tidy_opened]].
Qed.
Print Assumptions C67_can_finish.

(** Two prunes of the same rows, by age and by length, may each wait for a row of the other: then
    neither returns until Postgres ends one. *)
Definition t_over : tbl := pg_run fx_identifier tbl_init
  [ (1 * ms, OpEnqueue (req mail 0 (1 * ms))); (1 * ms, OpEnqueue (req mail 0 (2 * ms)));
    (3 * ms, OpComplete 1); (3 * ms, OpComplete 2) ].
Definition ls_cross : list qlabel :=
  [QCall (OpPrune (mk_prune_spec Complete (MaxAge (1 * ms)) (Except [])));
   QCall (OpPrune (mk_prune_spec Complete (MaxLength 0) (Except [])))]
  ++ run_i 0 50 2 ++ run_i 1 50 2.
Theorem C67_deadlock_refuted : exists t ls,
  sound_table t /\
  let s := qrun fx_identifier (opened t) ls in
  (forall ls', Forall advances ls' -> ~ all_finished (qrun fx_identifier s ls'))
  /\ (forall i, torn s i -> exists ls', Forall advances ls' /\ all_finished (qrun fx_identifier s (QAbort i BadState :: ls'))).
Proof.
  exists t_over, ls_cross. split.
  { unfold sound_table. assert (E : map r_id (t_rows t_over) = [1; 2]) by (vm_compute; reflexivity).
    assert (En : t_next t_over = 3) by (vm_compute; reflexivity). rewrite En. split; [rewrite E; repeat constructor; cbn; intuition discriminate|].
    split; [|lia]. intros r Hr. apply (in_map r_id) in Hr. rewrite E in Hr. cbn in Hr. lia. }
  set (s := qrun fx_identifier (opened t_over) ls_cross).
  assert (Es : s = mk_q t_over [mk_qcall (OpPrune (mk_prune_spec Complete (MaxAge (1 * ms)) (Except []))) (QDooming (50 * ms) [1] [2]);
                                 mk_qcall (OpPrune (mk_prune_spec Complete (MaxLength 0) (Except []))) (QDooming (50 * ms) [2] [1])])
    by (vm_compute; reflexivity).
  clearbody s. subst s. cbv zeta. split.
  - intros ls' Hl Hf.
    assert (Hs : qrun fx_identifier (mk_q t_over [mk_qcall (OpPrune (mk_prune_spec Complete (MaxAge (1 * ms)) (Except []))) (QDooming (50 * ms) [1] [2]);
                                 mk_qcall (OpPrune (mk_prune_spec Complete (MaxLength 0) (Except []))) (QDooming (50 * ms) [2] [1])]) ls'
              = mk_q t_over [mk_qcall (OpPrune (mk_prune_spec Complete (MaxAge (1 * ms)) (Except []))) (QDooming (50 * ms) [1] [2]);
                                 mk_qcall (OpPrune (mk_prune_spec Complete (MaxLength 0) (Except []))) (QDooming (50 * ms) [2] [1])]).
    { clear Hf. induction Hl as [|l ls' Hl _ IH]; [reflexivity|]. destruct l as [o|i n p|i e]; try destruct Hl. cbn [qrun].
      destruct i as [|[|i]]; [exact IH|exact IH|]. cbn [qstep q_calls nth_error]. destruct i; exact IH. }
    rewrite Hs in Hf. destruct (Hf 0%nat _ eq_refl) as [r Hr]. discriminate.
  - intros i [ps [now [tk [rs [Hi _]]]]]. destruct i as [|[|i]]; [| |destruct i; discriminate].
    + exists (run_i 1 60 2). split; [repeat constructor|]. intros i c Hc.
      destruct i as [|[|i]]; [| |destruct i; discriminate]; vm_compute in Hc; injection Hc as <-; eexists; reflexivity.
    + exists (run_i 0 60 2). split; [repeat constructor|]. intros i c Hc.
      destruct i as [|[|i]]; [| |destruct i; discriminate]; vm_compute in Hc; injection Hc as <-; eexists; reflexivity.
Qed.
Print Assumptions C67_deadlock_refuted.
(** A single prune that has locked one of two rows, another call waiting for that row. *)
Example C67_can_finish_sample :
  let s := qrun fx_identifier (opened t_over) ([QCall (OpPrune (mk_prune_spec Complete (MaxLength 0) (Except []))); QCall (OpRerun 2)]
             ++ run_i 0 50 2 ++ run_i 1 50 1) in
  torn s 0 /\ ~ torn s 1 /\ nth_error (q_calls s) 1 = Some (mk_qcall (OpRerun 2) QStart).
Proof.
  cbv zeta. split; [eexists _, _, _, _; split; [vm_compute; reflexivity|split; discriminate]|].
  split; [intros [ps [now [tk [rs [H _]]]]]; discriminate H|vm_compute; reflexivity].
Qed.

(** * C68 A call that is not interfered with *)

(** Started while nobody else holds a row or an advisory lock and executed by itself, a call does
    what it does in the sequential model: same table, same result, the other calls untouched. *)
Theorem C68_alone : forall ident t ls i o now,
  sound_table t ->
  let s := qrun ident (opened t) ls in
  nth_error (q_calls s) i = Some (mk_qcall o QStart) -> undisturbed ident i s ->
  exists n, let s' := qrun ident s (repeat (QRun i now 0) n) in
    q_tbl s' = fst (pg_step ident now (q_tbl s) o)
    /\ finished s' i o (snd (pg_step ident now (q_tbl s) o))
    /\ forall k, k <> i -> nth_error (q_calls s') k = nth_error (q_calls s) k.
Proof.
  intros ident t ls i o now Ht s Hc Hu. assert (Hinv : qinv s) by (apply run_inv, inv_opened, Ht).
  destruct (solo ident i o (q_calls s) now _ Hc (q_tbl s) (iv_nodup s Hinv)) as [n Hn].
  - intros k c Hk Hck. apply (Hu k c Hk Hck).
  - intros k c Hk Hck. apply (Hu k c Hk Hck).
  - exists n. unfold at_pc in Hn. rewrite (set_nth_same i _ _ Hc) in Hn.
    replace (mk_q (q_tbl s) (q_calls s)) with s in Hn by (destruct s; reflexivity). cbv zeta. rewrite Hn. cbn [q_tbl].
    split; [reflexivity|]. split; [unfold finished; cbn [q_calls]; rewrite set_nth_nth, Nat.eqb_refl, Hc; reflexivity|].
    intros k Hk. cbn [q_calls]. rewrite set_nth_nth. destruct (Nat.eqb_spec i k) as [->|_]; [contradiction|reflexivity].
Qed.
Print Assumptions C68_alone.
Example C68_alone_sample :
  let s := qrun fx_identifier (opened t_sample) [QCall (OpLoad mail); QCall (OpEnqueue (ureq mail 0 (50 * ms) once_spec))] in
  nth_error (q_calls s) 1 = Some (mk_qcall (OpEnqueue (ureq mail 0 (50 * ms) once_spec)) QStart) /\ undisturbed fx_identifier 1 s.
Proof.
  split; [reflexivity|]. intros [|[|k]] c Hk Hc; cbn in Hc; [injection Hc as <-; split; reflexivity|lia|destruct k; discriminate].
Qed.
