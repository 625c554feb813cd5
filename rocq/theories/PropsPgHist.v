(** Properties of histories of the Postgres backend. *)
From Coq Require Import Permutation Sorted.
From Verif Require Import Base Chrono Types TypesProofs Query QueryProofs Memory MemSpec MemProofs
  MemThms MemHist MemHist2 MemInv Samples PgRow PgQuery FxHash Pg PgSpec PgProofs PgQueryProofs PgOps PropsPg PgHist.

(** * C63 Ids *)

(** At every point of every history the ids in the table differ, are positive and fit the column. *)
Theorem C63_ids_differ : forall ident h,
  NoDup (map r_id (t_rows (pg_run ident tbl_init h)))
  /\ forall r, In r (t_rows (pg_run ident tbl_init h)) -> 1 <= r_id r <= 2147483647.
Proof.
  intros ident h. destruct (run_ids ident h tbl_init ids_ok_init) as [[H1 [H2 H3]] _]. split; [exact H1|].
  intros r Hr. specialize (H2 r Hr). lia.
Qed.
Print Assumptions C63_ids_differ.

(** A successful enqueue returns the id of a job in the table; if that job was not there before, the
    id is greater than any the table ever had. *)
Theorem C63_never_reused : forall ident h now e id,
  snd (pg_step ident now (pg_run ident tbl_init h) (OpEnqueue e)) = RId (Ok id) ->
  let t := pg_run ident tbl_init h in
  In id (map r_id (t_rows (fst (pg_step ident now t (OpEnqueue e)))))
  /\ (In id (map r_id (t_rows t))
      \/ forall h1 h2 r, h = h1 ++ h2 -> In r (t_rows (pg_run ident tbl_init h1)) -> r_id r < id).
Proof.
  intros ident h now e id. cbv zeta. destruct (run_ids ident h tbl_init ids_ok_init) as [Hok _].
  set (t := pg_run ident tbl_init h) in *. destruct (pg_step ident now t (OpEnqueue e)) as [t' res] eqn:Es.
  cbn [fst snd]. intros ->. apply pg_step_cases in Es; [|apply Hok].
  destruct Es as [[-> Hq]|[[e' [key [_ [Er [_ ->]]]]]|[H|[ps [keep [Ho _]]]]]]; [| | |discriminate].
  - split; [exact Hq|left; exact Hq].
  - injection Er as ->. cbn. split; [rewrite map_app; apply in_or_app; right; left; reflexivity|]. right.
    intros h1 h2 r -> Hr. destruct (run_ids ident h1 tbl_init ids_ok_init) as [[_ [H1 _]] _]. specialize (H1 r Hr).
    destruct (run_ids ident h2 (pg_run ident tbl_init h1)) as [_ H2]; [apply run_ids, ids_ok_init|].
    unfold t. rewrite run_app. lia.
  - destruct (rewritten_ids _ _ _ _ H) as [E _]. destruct H as [pre [r [r' [post [E1 [_ [_ [Hc _]]]]]]]].
    cbn in Hc. destruct Hc as [_ [_ [_ Hc]]]. injection Hc as ->.
    assert (Hi : In (r_id r) (map r_id (t_rows t))) by (rewrite E1; apply in_map, in_or_app; right; left; reflexivity).
    split; [rewrite E; exact Hi|left; exact Hi].
Qed.
Print Assumptions C63_never_reused.

Definition prune_push : prune_spec := mk_prune_spec Complete (MaxLength 0) (Except []).
Example C63_example :
  let t := pg_run fx_identifier tbl_init (h_pg ++ [(10 * ms, OpPrune prune_push)]) in
  map r_id (t_rows t_sample) = [1; 2; 3] /\ map r_id (t_rows t) = [1; 2]
  /\ snd (pg_step fx_identifier (11 * ms) t (OpEnqueue (req mail 0 0))) = RId (Ok 4).
Proof. vm_compute. auto. Qed.

(** * C65 Failed operations *)

(** An operation that fails leaves the table as it was, except that a hand-out may mark a job
    executing although its row cannot be read. *)
Theorem C65_failed_partial : forall ident h now o,
  let t := pg_run ident tbl_init h in
  let (t', r) := pg_step ident now t o in
  failed r ->
  t' = t
  \/ exists ex r1, o = OpLoad ex /\ In r1 (t_rows t') /\ r_status r1 = "executing"%string
       /\ (forall j, ~ represents r1 j).
Proof.
  intros ident h now o. cbv zeta. destruct (run_ids ident h tbl_init ids_ok_init) as [Hok _].
  set (t := pg_run ident tbl_init h) in *. destruct (pg_step ident now t o) as [t' r] eqn:Es. intro Hf.
  apply pg_step_cases in Es; [|apply Hok].
  destruct Es as [[-> _]|[[e' [key [_ [-> _]]]]|[[pre [r0 [r1 [post [E [-> [_ [Hc _]]]]]]]]|[ps [keep [_ [-> _]]]]]]];
    [left; reflexivity|destruct Hf| |destruct Hf].
  destruct o; cbn in Hc; try contradiction.
  - destruct Hc as [_ [_ [_ ->]]]. destruct Hf.
  - destruct Hc as [H1 [_ [_ [[j [_ ->]]|[Hno _]]]]]; [destruct Hf|]. right. exists executor, r1. split; [reflexivity|].
    split; [cbn; apply in_or_app; right; left; reflexivity|]. split; [exact H1|]. intros j Hj. apply Hno. exists j. exact Hj.
  - destruct Hc as [_ [-> _]]. destruct Hf.
  - destruct Hc as [_ [-> _]]. destruct Hf.
  - destruct Hc as [_ [-> _]]. destruct Hf.
  - destruct Hc as [_ [-> _]]. destruct Hf.
  - destruct Hc as [_ [-> _]]. destruct Hf.
  - destruct Hc as [_ [-> _]]. destruct Hf.
  - destruct Hc as [_ [-> _]]. destruct Hf.
Qed.
Print Assumptions C65_failed_partial.

(** Snoozing a job that was not handed out makes its attempt number negative; an error then
    recorded for it cannot be read back. *)
Definition h_negative : list (time * mop) :=
  [ (1 * ms, OpEnqueue (req mail 0 (1 * ms))); (1 * ms, OpEnqueue (req push 0 (1 * ms)));
    (2 * ms, OpSnoozed 1 (2 * ms)); (3 * ms, OpRetryable 1 (3 * ms) boom) ].

Theorem C65_failed_refuted : exists h o r t',
  let t := pg_run fx_identifier tbl_init h in
  pg_step fx_identifier (5 * ms) t o = (t', RJob (Err r)) /\ t' <> t
  /\ map r_status (t_rows t) = ["retryable"; "scheduled"]%string
  /\ map r_status (t_rows t') = ["executing"; "scheduled"]%string.
Proof.
  exists h_negative, (OpLoad mail). do 2 eexists. cbv zeta. split; [vm_compute; reflexivity|].
  split; [|split; vm_compute; reflexivity]. intro H. apply (f_equal (fun t => map r_status (t_rows t))) in H.
  vm_compute in H. discriminate.
Qed.
Print Assumptions C65_failed_refuted.

Example C65_example :
  let step o := pg_step fx_identifier (20 * ms) t_sample o in
  failed (snd (step (OpComplete 9))) /\ failed (snd (step (OpSnoozed 1 (-300000000000000 * ms))))
  /\ fst (step (OpSnoozed 1 (-300000000000000 * ms))) = t_sample /\ ~ failed (snd (step (OpSnoozed 1 0))).
Proof.
  cbv zeta. split; [vm_compute; exact I|]. split; [vm_compute; exact I|]. split; [vm_compute; reflexivity|].
  vm_compute. intro H. exact H.
Qed.

(** * C66 Readable tables *)

(** As long as errors are recorded only for attempt numbers of 16 bits, every row of the table
    reads as a job. *)
Theorem C66_readable_partial : forall ident h, attempts_fit ident tbl_init h ->
  exists js, holds_jobs (pg_run ident tbl_init h) js.
Proof.
  intros ident h Hf. apply readable_holds. apply run_readable; [exact ids_ok_init|intros r []|exact Hf].
Qed.
Print Assumptions C66_readable_partial.

(** Otherwise a single row makes every query that meets it fail, and so loses the other jobs from
    view. *)
Theorem C66_readable_refuted : exists h t,
  t = pg_run fx_identifier tbl_init h
  /\ (forall js, ~ holds_jobs t js)
  /\ (exists r j, In r (t_rows t) /\ represents r j /\ j_executor j = push)
  /\ pg_step fx_identifier (9 * ms) t (OpQuery (QNot (QIdEquals 7))) = (t, RJobs (Err EncodeDecode)).
Proof.
  exists h_negative. eexists. split; [reflexivity|]. split; [|split].
  - intros js H. assert (Hr : read_rows (t_rows (pg_run fx_identifier tbl_init h_negative)) = Ok js)
      by (apply read_rows_represents; exact H).
    vm_compute in Hr. discriminate.
  - assert (Hl : exists r, nth_error (t_rows (pg_run fx_identifier tbl_init h_negative)) 1 = Some r /\ exists j, job_of_row r = Ok j /\ j_executor j = push).
    { eexists. split; [vm_compute; reflexivity|]. eexists. split; vm_compute; reflexivity. }
    destruct Hl as [r [Hr [j [Hj He]]]]. exists r, j. split; [eapply nth_error_In; exact Hr|].
    split; [apply represents_iff; exact Hj|exact He].
  - vm_compute. reflexivity.
Qed.
Print Assumptions C66_readable_refuted.

Lemma sample_fit : attempts_fit fx_identifier tbl_init h_pg.
Proof.
  unfold h_pg. repeat (cbn [attempts_fit]; split; [intro H; try discriminate H|]); try exact I.
  intros r Hr _. list_in Hr. repeat (destruct Hr as [<-|Hr]; [cbn; lia|]). destruct Hr.
Qed.
Example C66_example : attempts_fit fx_identifier tbl_init h_pg /\ map j_attempt js_sample = [0; 2; 1].
Proof. split; [exact sample_fit|vm_compute; reflexivity]. Qed.

(** * C14, C16 Attempts and errors as a function of what happened *)

Lemma notes_counts id tr : fst (notes id tr) = count (hands_out id) tr - count (snoozes id) tr.
Proof.
  unfold notes. induction tr as [|ev tr IH] using rev_ind; [reflexivity|].
  rewrite fold_left_app. cbn [fold_left]. unfold count in *. rewrite !filter_app, !app_length. cbn [filter].
  destruct (fold_left (notes_step id) tr (0, [])) as [a es]. cbn in IH. destruct ev as [[now o] r].
  destruct o, r as [[]|[]|[[]|?|]|[]]; cbn; try lia.
  all: try (match goal with |- context [Z.eq_dec ?x ?y] => destruct (Z.eq_dec x y) as [E|E];
         [try (rewrite E) | ] end).
  all: repeat match goal with |- context [?x =? ?y] => destruct (Z.eqb_spec x y) end; cbn; try lia.
Qed.

Theorem C14_attempt_accounting_postgres : forall ident h r, attempts_fit ident tbl_init h ->
  In r (t_rows (pg_run ident tbl_init h)) ->
  r_attempt r = count (hands_out (r_id r)) (pg_trace ident tbl_init h)
                - count (snoozes (r_id r)) (pg_trace ident tbl_init h).
Proof.
  intros ident h r Hf Hr. rewrite <- notes_counts, (proj1 (run_notes ident h Hf) r Hr). reflexivity.
Qed.
Print Assumptions C14_attempt_accounting_postgres.

Theorem C16_error_history_postgres : forall ident h r, attempts_fit ident tbl_init h ->
  In r (t_rows (pg_run ident tbl_init h)) ->
  map (fun se => (se_attempt se, se_details se)) (r_errors r) = snd (notes (r_id r) (pg_trace ident tbl_init h)).
Proof.
  intros ident h r Hf Hr. rewrite (proj1 (run_notes ident h Hf) r Hr). reflexivity.
Qed.
Print Assumptions C16_error_history_postgres.

Example C14_C16_example_postgres :
  attempts_fit fx_identifier tbl_init h_pg
  /\ map r_attempt (t_rows t_sample) = [0; 2; 1]
  /\ notes 2 (pg_trace fx_identifier tbl_init h_pg) = (2, [(1, ee_message boom)]).
Proof. split; [exact sample_fit|]. split; vm_compute; reflexivity. Qed.

(** * C15 Snoozing *)

Theorem C15_snooze_restores_postgres : forall ident t js now now' ex t1 j1 at_,
  holds_jobs t js -> NoDup (map j_id js) -> kept_time now -> kept_time now' -> kept_time at_ -> clean ex ->
  (forall j, In j js -> -2147483648 < j_attempt j < 2147483646 /\ -2147483648 < j_max_attempts j < 2147483647) ->
  pg_step ident now t (OpLoad ex) = (t1, RJob (Ok (Some j1))) ->
  exists pre j post t2,
    js = pre ++ j :: post /\ j_id j = j_id j1
    /\ pg_step ident now' t1 (OpSnoozed (j_id j1) at_) = (t2, RUnit (Ok tt))
    /\ holds_jobs t2
         (pre ++ {| j_id := j_id j;
               j_status := if Z.eq_dec (j_attempt j) 0 then Scheduled else Retryable;
               j_executor := j_executor j; j_data := j_data j; j_metadata := j_metadata j;
               j_attempt := j_attempt j; j_max_attempts := j_max_attempts j;
               j_priority := j_priority j; j_tags := j_tags j; j_errors := j_errors j;
               j_inserted_at := j_inserted_at j; j_scheduled_at := at_;
               j_attempted_at := Some now; j_completed_at := j_completed_at j;
               j_cancelled_at := j_cancelled_at j; j_discarded_at := j_discarded_at j |} :: post).
Proof.
  intros ident t js now now' ex t1 j1 at_ Ht Hn Hnow Hnow' Hat Hex Hc Hl.
  pose proof (C53_hand_out ident t js now ex Ht Hn Hnow Hex) as H. rewrite Hl in H.
  destruct H as [_ [[H _]|[j [js1 [Hdue [_ [Er [Ht1 [pre [post [E1 [E2 [_ Hpre]]]]]]]]]]]]].
  { intros j Hj _. destruct (Hc j Hj). lia. }
  { discriminate. }
  injection Er as ->. subst js js1.
  assert (Hn1 : NoDup (map j_id (pre ++ after_hand_out now j :: post))).
  { rewrite map_app in *. exact Hn. }
  pose proof (C13_status_operations_postgres ident t1 _ now' (OpSnoozed (j_id (after_hand_out now j)) at_) _ _ Ht1 Hn1 eq_refl Hnow' Hat) as H.
  destruct (pg_step ident now' t1 (OpSnoozed (j_id (after_hand_out now j)) at_)) as [t2 r2].
  destruct H as [_ [[-> [jj [js2 [Ht2 [pre2 [post2 [F1 [F2 [F3 F4]]]]]]]]]|[_ [_ Hno]]]].
  { intros x Hx _. split; [discriminate|]. apply in_app_or in Hx. destruct Hx as [Hx|[<-|Hx]].
    - assert (Hi : In x (pre ++ j :: post)) by (apply in_or_app; left; exact Hx). specialize (Hc x Hi). lia.
    - assert (Hi : In j (pre ++ j :: post)) by (apply in_or_app; right; left; reflexivity). specialize (Hc j Hi). cbn. lia.
    - assert (Hi : In x (pre ++ j :: post)) by (apply in_or_app; right; right; exact Hx). specialize (Hc x Hi). lia. }
  - destruct (nodup_app_unique j_id _ _ _ _ _ _ Hn1 F1 (eq_sym F3)) as [-> [<- ->]].
    exists pre2, j, post2, t2. split; [reflexivity|]. split; [reflexivity|]. split; [reflexivity|].
    subst js2. replace (if Z.eq_dec (j_attempt j) 0 then Scheduled else Retryable)
      with (j_status (after_snoozed at_ (after_hand_out now j))).
    2:{ cbn. destruct (Z.eq_dec (j_attempt j) 0), (Z.eq_dec (j_attempt j + 1) 1); reflexivity || lia. }
    replace (j_attempt j) with (j_attempt (after_snoozed at_ (after_hand_out now j))) by (cbn; lia).
    exact Ht2.
  - exfalso. apply (Hno (after_hand_out now j)); [apply in_or_app; right; left; reflexivity|reflexivity].
Qed.
Print Assumptions C15_snooze_restores_postgres.

Example C15_example_postgres :
  exists t1 j1, pg_step fx_identifier (20 * ms) t_sample (OpLoad mail) = (t1, RJob (Ok (Some j1)))
  /\ (forall j, In j js_sample -> -2147483648 < j_attempt j < 2147483646 /\ -2147483648 < j_max_attempts j < 2147483647).
Proof.
  do 2 eexists. split; [vm_compute; reflexivity|]. intros j Hj. destruct (sample_counters j Hj). lia.
Qed.

(** * C62 What a job is for *)

Theorem C62_payload_kept_postgres : forall ident h1 h2 r r',
  let t := pg_run ident tbl_init h1 in
  In r (t_rows t) ->
  (forall now o, In (now, o) h2 -> ~ replacing_enqueue o /\ (forall x, o = OpUpdate x -> j_id x <> r_id r)) ->
  In r' (t_rows (pg_run ident t h2)) -> r_id r' = r_id r ->
  r_data r' = r_data r /\ r_metadata r' = r_metadata r /\ r_executor r' = r_executor r
  /\ r_priority r' = r_priority r /\ r_tags r' = r_tags r /\ r_inserted_at r' = r_inserted_at r.
Proof.
  intros ident h1 h2 r r' t Hr Ho Hr' Hid.
  destruct (run_purpose ident h2 t r r') as [[A1 [A2 [A3 A4]]] [A5 A6]]; auto 10.
  apply run_ids, ids_ok_init.
Qed.
Print Assumptions C62_payload_kept_postgres.

Example C62_example_postgres :
  let h2 := [(20 * ms, OpLoad mail); (21 * ms, OpRetryable 1 (50 * ms) boom); (30 * ms, OpRerun 1);
             (31 * ms, OpEnqueue (ureq mail 0 0 (crit_open DoNothing)))] in
  (forall now o, In (now, o) h2 -> ~ replacing_enqueue o /\ (forall x, o = OpUpdate x -> j_id x <> 1))
  /\ map r_id (t_rows (pg_run fx_identifier t_sample h2)) = [1; 2; 3].
Proof.
  cbv zeta. split; [|vm_compute; reflexivity].
  intros t o [H|[H|[H|[H|[]]]]]; injection H as <- <-; (split; [|discriminate]); try (solve [intros []]).
  intros [uq [r [H1 H2]]]. injection H1 as <-. discriminate.
Qed.
