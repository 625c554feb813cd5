(** Properties of the Postgres backend, one operation at a time. *)
From Coq Require Import Permutation Sorted.
From Verif Require Import Base Chrono Types TypesProofs Query QueryProofs WhereSpec WhereProofs Memory MemSpec MemProofs
  MemThms Samples Codec Builder Ticker SchedSpec PropsApi PgRow PgQuery FxHash Pg PgSpec PgProofs PgQueryProofs PgOps.

(** * Sample *)

Definition h_pg : list (time * mop) :=
  [ (1 * ms, OpEnqueue (req mail 2 (5 * ms)));
    (2 * ms, OpEnqueue (req mail 1 (9 * ms)));
    (3 * ms, OpEnqueue (req push 0 (4 * ms)));
    (4 * ms, OpLoad mail);
    (5 * ms, OpRetryable 2 (6 * ms) boom);
    (6 * ms, OpLoad mail);
    (8 * ms, OpLoad push);
    (9 * ms, OpComplete 3) ].
Definition t_sample : tbl := pg_run fx_identifier tbl_init h_pg.
Definition js_sample : list job :=
  match read_rows (t_rows t_sample) with Ok js => js | _ => [] end.

Lemma kept_ms k : -210866803200000 <= k -> kept_time (k * ms).
Proof. intro H. unfold kept_time, ms. split; [exists (k * 1000); lia|lia]. Qed.
Lemma clean_by_storable s : storable s = true -> clean s.
Proof. apply storable_clean. Qed.

Lemma read_rows_inv l : forall js, read_rows l = Ok js -> Forall2 represents l js.
Proof.
  induction l as [|r l IH]; intros js H; cbn in H; [injection H as <-; constructor|].
  destruct (job_of_row r) as [j|e|] eqn:E; try discriminate. destruct (read_rows l) as [js'|e|]; try discriminate.
  injection H as <-. constructor; [apply represents_iff; exact E|auto].
Qed.
Lemma sample_holds : holds_jobs t_sample js_sample.
Proof. apply read_rows_inv. vm_compute. reflexivity. Qed.
Lemma sample_nodup : NoDup (map j_id js_sample).
Proof.
  assert (E : map j_id js_sample = [1; 2; 3]) by (vm_compute; reflexivity). rewrite E.
  repeat constructor; cbn; intuition discriminate.
Qed.
Lemma sample_counters j : In j js_sample -> 0 <= j_attempt j <= 5 /\ 0 <= j_max_attempts j <= 5.
Proof. intro H. list_in H. repeat (destruct H as [<-|H]; [cbn; lia|]). destruct H. Qed.

(** * C54 Encodings *)

Theorem C54_status_round_trip : forall s,
  spelled s (label s) /\ In (label s) enum_labels /\ status_of_label (label s) = Some s.
Proof.
  intro s. split; [apply spelled_label; reflexivity|].
  destruct s; (split; [cbn; tauto|reflexivity]).
Qed.
Print Assumptions C54_status_round_trip.

(** The other way: every label the column can hold is read, as the status so spelled, and nothing
    else is. *)
Theorem C54_labels_round_trip : forall l,
  (In l enum_labels <-> exists s, status_of_label l = Some s)
  /\ (forall s, status_of_label l = Some s <-> spelled s l)
  /\ (forall s, status_of_label l = Some s -> label s = l).
Proof.
  intro l. split; [|split].
  - split.
    + intro H. repeat (destruct H as [<-|H]; [eexists; reflexivity|]). destruct H.
    + intros [s Hs]. apply status_of_label_spec, spelled_label in Hs. subst l. destruct s; cbn; tauto.
  - intro s. apply status_of_label_spec.
  - intros s Hs. apply status_of_label_spec, spelled_label in Hs. auto.
Qed.
Print Assumptions C54_labels_round_trip.

(** Error types are read back unchanged unless they are custom ones that spell a built-in one. *)
Theorem C54_error_types_partial : forall e,
  (forall s, worded e s -> error_text e = s /\ error_of_text s = e)
  /\ (error_of_text (error_text e) = e <->
      (e <> EOther "panic" /\ e <> EOther "timeout" /\ e <> EOther "cancelled")).
Proof.
  intro e. split; [intros s H; apply worded_iff; exact H|]. split.
  - intro H. repeat split; intros ->; cbn in H; discriminate.
  - intros [H1 [H2 H3]]. destruct e as [| | |s]; try reflexivity.
    apply (worded_iff (EOther s) s). constructor; congruence.
Qed.
Print Assumptions C54_error_types_partial.

Theorem C54_error_texts_round_trip : forall s, error_text (error_of_text s) = s.
Proof.
  intro s. unfold error_of_text. repeat match goal with |- context [String.eqb ?y ?x] =>
    destruct (String.eqb_spec y x) as [->|]; [reflexivity|] end. reflexivity.
Qed.
Print Assumptions C54_error_texts_round_trip.

Theorem C54_error_types_refuted : exists e, error_of_text (error_text e) <> e.
Proof. exists (EOther "panic"). discriminate. Qed.
Print Assumptions C54_error_types_refuted.

(** A whole row reads as a job exactly when each of its columns says what the job's field says. *)
Theorem C54_row_reads : forall r j, job_of_row r = Ok j <-> represents r j.
Proof. intros. symmetry. apply represents_iff. Qed.
Print Assumptions C54_row_reads.

Example C54_example :
  worded (EOther "custom") "custom" /\ error_of_text "custom" = EOther "custom"
  /\ status_of_label "retryable" = Some Retryable /\ status_of_label "Retryable" = None
  /\ holds_jobs t_sample js_sample /\ map (fun j => map je_type (j_errors j)) js_sample = [[]; [EOther "custom"]; []].
Proof.
  split; [constructor; discriminate|]. split; [reflexivity|]. split; [reflexivity|]. split; [reflexivity|].
  split; [exact sample_holds|vm_compute; reflexivity].
Qed.

(** * C64 Times to the microsecond *)

(** A stored time is a whole number of microseconds, less than one away, on the side of the year
    2000. *)
Theorem C64_stored_time : forall t,
  (exists k, pg_time t = k * 1000)
  /\ (946684800000000000 <= t -> pg_time t <= t < pg_time t + 1000)
  /\ (t <= 946684800000000000 -> t <= pg_time t < t + 1000).
Proof.
  intro t. unfold pg_time, pg_epoch, ns_per_s.
  replace (946684800 * 1000000000) with 946684800000000000 by reflexivity.
  split; [exists (946684800000000 + Z.quot (t - 946684800000000000) 1000); lia|].
  pose proof (Z.quot_rem' (t - 946684800000000000) 1000) as H. split; intro Ht.
  - pose proof (Z.rem_bound_pos (t - 946684800000000000) 1000). lia.
  - pose proof (Z.rem_bound_pos (- (t - 946684800000000000)) 1000) as Hb.
    rewrite Z.rem_opp_l in Hb by lia. lia.
Qed.
Print Assumptions C64_stored_time.

(** Whole microseconds since 4714 BC are accepted and kept; times before that are not accepted. *)
Theorem C64_kept : forall t,
  (kept_time t -> bind_time t = Some t) /\ (t <= -210866803200000000000 - 1000 -> bind_time t = None).
Proof.
  intro t. split.
  - intro H. destruct (pg_time_kept t H) as [T O]. unfold time_ok, bind_time in *. rewrite T in *.
    destruct (pg_first <=? t); [reflexivity|discriminate].
  - intro H. unfold bind_time. destruct (C64_stored_time t) as [_ [_ Hb]].
    assert (E : pg_first <=? pg_time t = false).
    { apply Z.leb_gt. unfold pg_first, pg_epoch, ns_per_s. cbv beta in *. lia. }
    rewrite E. reflexivity.
Qed.
Print Assumptions C64_kept.

Example C64_example :
  pg_time 946684800000001999 = 946684800000001000 /\ pg_time 946684799999998001 = 946684799999999000
  /\ kept_time (5 * ms) /\ bind_time (5 * ms) = Some (5 * ms).
Proof. split; [vm_compute; reflexivity|]. split; [vm_compute; reflexivity|]. split; [apply kept_ms; lia|vm_compute; reflexivity]. Qed.

(** * C13, C55 Status operations *)

Theorem C13_status_operations_postgres : forall ident t js now o id f,
  holds_jobs t js -> NoDup (map j_id js) -> report_effect now o = Some (id, f) ->
  kept_time now -> kept_report o ->
  (forall j, In j js -> j_id j = id ->
     (adds_error o = true -> 0 <= j_attempt j <= 65535)
     /\ -2147483648 < j_attempt j < 2147483647 /\ -2147483648 < j_max_attempts j < 2147483647) ->
  let (t', r) := pg_step ident now t o in
  t_next t' = t_next t /\
  ((r = RUnit (Ok tt) /\ exists j js', holds_jobs t' js' /\ changed_one id j (f j) js js')
   \/ (r = RUnit (Err (JobNotFound id)) /\ t' = t /\ forall j, In j js -> j_id j <> id)).
Proof. exact report_jobs. Qed.
Print Assumptions C13_status_operations_postgres.

Lemma changed_one_fun id f (l l1 l2 : list job) j1 j2 : NoDup (map j_id l) ->
  changed_one id j1 (f j1) l l1 -> changed_one id j2 (f j2) l l2 -> l1 = l2.
Proof.
  intros Hn [pre1 [post1 [E1 [-> [I1 H1]]]]] [pre2 [post2 [E2 [-> [I2 H2]]]]]. rewrite E1 in E2. clear E1 Hn.
  revert pre2 E2 H2. induction pre1 as [|x pre1 IH]; intros [|y pre2] E2 H2; cbn in E2.
  - injection E2 as -> ->. reflexivity.
  - injection E2 as -> _. exfalso. apply (H2 y (or_introl eq_refl)). exact I1.
  - injection E2 as -> _. exfalso. apply (H1 j2 (or_introl eq_refl)). exact I2.
  - injection E2 as -> E2. cbn. f_equal. apply IH; [intros; apply H1; right; assumption|exact E2|intros; apply H2; right; assumption].
Qed.

(** The same result, and the same jobs afterwards, when the values given are ones the database keeps
    (missing: values it does not keep, see the refutations). *)
Theorem C55_status_operations_partial : forall p ident now m t o id f,
  m_poisoned m = false -> holds_jobs t (jobs_of m) -> NoDup (map j_id (jobs_of m)) ->
  counters_in_range m -> report_effect now o = Some (id, f) -> kept_time now -> kept_report o ->
  (adds_error o = true -> forall j, In j (jobs_of m) -> j_id j = id -> 0 <= j_attempt j <= 65535) ->
  let (m', r) := mem_step p now m o in
  let (t', r') := pg_step ident now t o in
  r = r' /\ holds_jobs t' (jobs_of m').
Proof.
  intros p ident now m t o id f Hp Ht Hn Hc He Hnow Hk Ha.
  pose proof (report_lemma p now m o id f Hp Hc He) as Hm.
  pose proof (report_jobs ident t (jobs_of m) now o id f Ht Hn He Hnow Hk) as Hg.
  destruct (mem_step p now m o) as [m' r]. destruct (pg_step ident now t o) as [t' r'].
  destruct Hg as [_ Hg].
  { intros j Hj Hid. split; [intro Hadd; apply (Ha Hadd j Hj Hid)|apply (Hc j Hj)]. }
  destruct Hm as [[-> [j Hj]]|[-> [-> Hno]]], Hg as [[-> [j' [js' [Hh Hj']]]]|[-> [-> Hno']]].
  - split; [reflexivity|]. rewrite (changed_one_fun id f _ _ _ _ _ Hn Hj Hj'). exact Hh.
  - exfalso. destruct Hj as [pre [post [E [_ [I _]]]]]. apply (Hno' j); [rewrite E; apply in_or_app; right; left; reflexivity|exact I].
  - exfalso. destruct Hj' as [pre [post [E [_ [I _]]]]]. apply (Hno j'); [rewrite E; apply in_or_app; right; left; reflexivity|exact I].
  - split; [reflexivity|exact Ht].
Qed.
Print Assumptions C55_status_operations_partial.

(** The sample's jobs in an in-memory store. *)
Definition m_twin : mem := mk_mem (map (fun j => mk_kjob j None) js_sample) 4 [] false false.

Example C55_example :
  m_poisoned m_twin = false /\ holds_jobs t_sample (jobs_of m_twin) /\ NoDup (map j_id (jobs_of m_twin))
  /\ counters_in_range m_twin
  /\ kept_time (20 * ms) /\ kept_report (OpRetryable 2 (30 * ms) boom)
  /\ (forall j, In j (jobs_of m_twin) -> 0 <= j_attempt j <= 65535)
  /\ snd (pg_step fx_identifier (20 * ms) t_sample (OpRetryable 2 (30 * ms) boom)) = RUnit (Ok tt)
  /\ snd (mem_step Debug (20 * ms) m_twin (OpRetryable 2 (30 * ms) boom)) = RUnit (Ok tt)
  /\ snd (pg_step fx_identifier (20 * ms) t_sample (OpRerun 9)) = RUnit (Err (JobNotFound 9)).
Proof.
  assert (E : jobs_of m_twin = js_sample) by (vm_compute; reflexivity). unfold counters_in_range. rewrite E.
  split; [reflexivity|]. split; [exact sample_holds|]. split; [exact sample_nodup|].
  split; [intros j Hj; pose proof (sample_counters j Hj); lia|].
  split; [apply kept_ms; lia|]. split.
  { cbn [kept_report]. split; [apply kept_ms; lia|]. split; [apply clean_by_storable; reflexivity|].
    exists "custom"%string. split; [constructor; discriminate|apply clean_by_storable; reflexivity]. }
  split; [intros j Hj; pose proof (sample_counters j Hj); lia|].
  split; [vm_compute; reflexivity|]. split; vm_compute; reflexivity.
Qed.

(** Four ways the two backends come apart on the same report: a custom error type that spells a
    built-in one, an attempt number that is negative, a message with a zero byte, and a time that is
    no whole number of microseconds.  The jobs are the same before; [reads] is what is read back. *)
Definition attempted (a : Z) : row :=
  put_attempt a (put_status "executing" (new_row 0 1 None (req mail 0 0))).
Definition attempted_job (a : Z) : job :=
  match job_of_row (attempted a) with Ok j => j | _ => new_job 0 1 (req mail 0 0) end.
Definition zero_byte : string := String (Ascii.ascii_of_nat 0) EmptyString.

Theorem C55_status_operations_refuted :
  let t a := mk_tbl [attempted a] 2 in
  let m a := mk_mem [mk_kjob (attempted_job a) None] 2 [] false false in
  let pg a o := pg_step fx_identifier ms (t a) o in
  let mm a o := mem_step Debug ms (m a) o in
  holds_jobs (t 1) (jobs_of (m 1)) /\ holds_jobs (t (-1)) (jobs_of (m (-1)))
  (* the error type *)
  /\ (let o := OpCancelled 1 (mk_exec_error (EOther "panic") "x") in
      snd (pg 1 o) = RUnit (Ok tt) /\ snd (mm 1 o) = RUnit (Ok tt)
      /\ ~ holds_jobs (fst (pg 1 o)) (jobs_of (fst (mm 1 o)))
      /\ (exists js, holds_jobs (fst (pg 1 o)) js /\ map (fun j => map je_type (j_errors j)) js = [[EPanic]]))
  (* the attempt *)
  /\ (let o := OpCancelled 1 boom in
      snd (pg (-1) o) = RUnit (Ok tt) /\ snd (mm (-1) o) = RUnit (Ok tt)
      /\ forall js, ~ holds_jobs (fst (pg (-1) o)) js)
  (* the message *)
  /\ (let o := OpDiscarded 1 (mk_exec_error EPanic zero_byte) in
      pg 1 o = (t 1, RUnit (Err BadState)) /\ snd (mm 1 o) = RUnit (Ok tt))
  (* the time *)
  /\ (let o := OpSnoozed 1 (ms + 1) in
      snd (pg 1 o) = RUnit (Ok tt) /\ snd (mm 1 o) = RUnit (Ok tt)
      /\ ~ holds_jobs (fst (pg 1 o)) (jobs_of (fst (mm 1 o)))).
Proof.
  cbv zeta. split; [apply read_rows_inv; vm_compute; reflexivity|].
  split; [apply read_rows_inv; vm_compute; reflexivity|].
  assert (Hread : forall t js, holds_jobs t js -> read_rows (t_rows t) = Ok js) by (intros; apply read_rows_represents; assumption).
  split; [|split; [|split]].
  - split; [vm_compute; reflexivity|]. split; [vm_compute; reflexivity|]. split.
    + intro H. apply Hread in H. vm_compute in H. discriminate.
    + eexists. split; [apply read_rows_inv; vm_compute; reflexivity|reflexivity].
  - split; [vm_compute; reflexivity|]. split; [vm_compute; reflexivity|].
    intros js H. apply Hread in H. vm_compute in H. discriminate.
  - split; vm_compute; reflexivity.
  - split; [vm_compute; reflexivity|]. split; [vm_compute; reflexivity|].
    intro H. apply Hread in H. vm_compute in H. discriminate.
Qed.
Print Assumptions C55_status_operations_refuted.

(** * C56 Update *)

Theorem C56_update_postgres : forall ident t js now j',
  holds_jobs t js -> NoDup (map j_id js) -> kept_job j' ->
  let (t', r) := pg_step ident now t (OpUpdate j') in
  t_next t' = t_next t /\
  ((r = RUnit (Ok tt) /\ exists j js', holds_jobs t' js' /\ changed_one (j_id j') j (edited j' j) js js')
   \/ (r = RUnit (Err (JobNotFound (j_id j'))) /\ t' = t /\ forall j, In j js -> j_id j <> j_id j')).
Proof. exact edit_jobs. Qed.
Print Assumptions C56_update_postgres.

Definition wish : job :=
  mk_job 2 Complete push (JStr "new") (JNum 4) 77 8 5 ["b"%string] [] 0 (70 * ms) None None None None.

Example C56_example :
  kept_job wish
  /\ snd (pg_step fx_identifier (20 * ms) t_sample (OpUpdate wish)) = RUnit (Ok tt)
  /\ map (fun r => (r_id r, r_status r, r_max_attempts r, r_attempt r))
        (t_rows (fst (pg_step fx_identifier (20 * ms) t_sample (OpUpdate wish))))
     = [(1, "scheduled", 3, 0); (2, "executing", 8, 2); (3, "complete", 3, 1)]%string.
Proof.
  split; [|split; vm_compute; reflexivity].
  split; [apply clean_by_storable; reflexivity|]. split; [exact I|]. split; [|apply kept_ms; lia].
  constructor; [apply clean_by_storable; reflexivity|constructor].
Qed.

(** In memory the same call also changes the status, the attempt count and the history. *)
Theorem C56_update_memory_refuted : exists m j j',
  m_poisoned m = false /\ In j (jobs_of m) /\ j_id j = j_id j'
  /\ snd (mem_step Debug 0 m (OpUpdate j')) = RUnit (Ok tt)
  /\ exists j2, In j2 (jobs_of (fst (mem_step Debug 0 m (OpUpdate j')))) /\ j_id j2 = j_id j
       /\ j_status j2 <> j_status j /\ j_attempt j2 <> j_attempt j /\ j_errors j2 <> j_errors j
       /\ j_executor j2 <> j_executor j.
Proof.
  exists m_twin. exists (nth 1 js_sample wish), wish. split; [reflexivity|].
  split; [assert (E : jobs_of m_twin = js_sample) by (vm_compute; reflexivity); rewrite E; apply nth_In; vm_compute; lia|].
  split; [vm_compute; reflexivity|]. split; [vm_compute; reflexivity|].
  exists wish. split; [vm_compute; tauto|]. split; [vm_compute; reflexivity|].
  split; [|split; [|split]]; vm_compute; discriminate.
Qed.
Print Assumptions C56_update_memory_refuted.

(** * C51 Queries *)

(** For queries whose text groups the way they are nested the result is right; and newest first. *)
Theorem C51_query_partial : forall ident now q t js,
  plain Anywhere q -> holds_jobs t js ->
  exists l kept, pg_step ident now t (OpQuery q) = (t, RJobs (Ok l))
    /\ Permutation l kept /\ exactly_removed (fun j => ~ sat q j) js kept /\ newest_first l.
Proof.
  intros ident now q t js Hp Ht. destruct (pg_query_plain Anywhere q t js Hp Ht) as [l [H1 [H2 H3]]].
  exists l, (filter (query_matches q) js). cbn [pg_step]. rewrite H1. split; [reflexivity|]. split; [exact H2|].
  split; [|exact H3]. split.
  - apply retained_filter. intros j _ Hj Hs. apply query_matches_sat in Hs. congruence.
  - intros j Hj Hs. apply filter_In in Hj. destruct Hj as [_ Hj]. apply Hs, query_matches_sat, Hj.
Qed.
Print Assumptions C51_query_partial.

Definition q_plain : query :=
  QOr [QAnd [QExecutorEqual mail; QNot (QStatusEqual Complete); QScheduledAtBefore (8 * ms)]; QIdIn [3]].
Example C51_example :
  plain Anywhere q_plain
  /\ exists l, pg_query q_plain t_sample = Ok l /\ map j_id l = [3; 2; 1].
Proof.
  assert (Hm : clean mail) by (apply clean_by_storable; reflexivity).
  split.
  - apply pl_or; [discriminate|]. intros q Hq. destruct Hq as [<-|[<-|[]]]; [|constructor].
    apply pl_and; [discriminate|discriminate|]. intros q Hq.
    destruct Hq as [<-|[<-|[<-|[]]]]; [constructor; exact Hm|constructor; constructor|constructor; apply kept_ms; lia].
  - eexists. split; vm_compute; reflexivity.
Qed.

(** Where nesting and text differ the result is wrong: negated conjunctions, disjunctions inside
    conjunctions, several ids, none; and an empty conjunction or disjunction is an error. *)
Theorem C51_query_refuted :
  let ids q := match pg_query q t_sample with Ok l => Some (map j_id l) | _ => None end in
  let right q := map j_id (filter (query_matches q) js_sample) in
  (* NOT (id = 1 AND id = 2) is everything, the text says NOT id = 1 AND id = 2 *)
  (let q := QNot (QAnd [QIdEquals 1; QIdEquals 2]) in ids q = Some [2] /\ right q = [1; 2; 3])
  (* (id = 1 OR id = 2) AND executor = push is nothing *)
  /\ (let q := QAnd [QOr [QIdEquals 1; QIdEquals 2]; QExecutorEqual push] in ids q = Some [1] /\ right q = [])
  (* one of two ids *)
  /\ (let q := QIdIn [1; 2] in ids q = Some [] /\ right q = [1; 2])
  (* none of no ids *)
  /\ (let q := QIdIn [] in ids q = Some [3; 2; 1] /\ right q = [])
  (* everything and nothing *)
  /\ (ids (QAnd []) = None /\ right (QAnd []) = [1; 2; 3])
  /\ (ids (QOr []) = None /\ right (QOr []) = []).
Proof. vm_compute. repeat split; reflexivity. Qed.
Print Assumptions C51_query_refuted.

(** * C24 Queries through an executor *)

Theorem C24_executor_query_postgres_partial : forall ident now q ex t js,
  plain Conjunct q -> clean ex -> holds_jobs t js ->
  exists l kept, pg_step ident now t (OpQuery (for_executor q ex)) = (t, RJobs (Ok l))
    /\ Permutation l kept /\ exactly_removed (fun j => ~ (j_executor j = ex /\ sat q j)) js kept.
Proof.
  intros ident now q ex t js Hp Hex Ht.
  assert (Hpl : plain Anywhere (for_executor q ex)).
  { destruct q; try (apply pl_and; [discriminate|discriminate|]; intros x [<-|[<-|[]]]; [constructor; exact Hex|exact Hp]).
    cbn. assert (Hqs : forall x, In x qs -> plain Conjunct x).
    { inversion Hp; subst.
      - intros x [<-|[]]. assumption.
      - assumption. }
    apply pl_and; [discriminate|destruct qs; discriminate|]. intros x Hx. apply in_app_or in Hx.
    destruct Hx as [Hx|[<-|[]]]; [auto|constructor; exact Hex]. }
  destruct (C51_query_partial ident now _ t js Hpl Ht) as [l [kept [H1 [H2 [[H3 H4] _]]]]].
  exists l, kept. split; [exact H1|]. split; [exact H2|]. split.
  - clear H4 H1 H2 Ht. induction H3 as [|x l0 l1 H IH|x l0 l1 Hx H IH]; [constructor|constructor; exact IH|].
    apply ret_drop; [|exact IH]. rewrite <- for_executor_sat. exact Hx.
  - intros x Hx Hs. apply (H4 x Hx). rewrite for_executor_sat. exact Hs.
Qed.
Print Assumptions C24_executor_query_postgres_partial.

Example C24_postgres_example :
  plain Conjunct (QNot (QStatusEqual Complete)) /\ clean mail
  /\ exists l, pg_query (for_executor (QNot (QStatusEqual Complete)) mail) t_sample = Ok l /\ map j_id l = [2; 1].
Proof.
  split; [constructor; constructor|]. split; [apply clean_by_storable; reflexivity|].
  eexists. split; vm_compute; reflexivity.
Qed.

(** A disjunction asked through one executor returns another executor's jobs. *)
Theorem C24_executor_query_postgres_refuted : exists q l j,
  pg_query (for_executor q mail) t_sample = Ok l /\ In j l /\ j_executor j = push
  /\ q = QOr [QStatusEqual Scheduled; QStatusEqual Complete].
Proof.
  exists (QOr [QStatusEqual Scheduled; QStatusEqual Complete]). do 2 eexists.
  split; [vm_compute; reflexivity|]. split; [left; reflexivity|]. split; reflexivity.
Qed.
Print Assumptions C24_executor_query_postgres_refuted.

(** * C53 Hand-out order *)

(** One load: the best due job by priority and then schedule, marked executing; nothing when no job
    is due.  (Overlapping loads: PropsPgConc.v.) *)
Theorem C53_hand_out : forall ident t js now ex,
  holds_jobs t js -> NoDup (map j_id js) -> kept_time now -> clean ex ->
  (forall j, In j js -> due now ex j -> -2147483648 <= j_attempt j < 2147483647) ->
  let (t', r) := pg_step ident now t (OpLoad ex) in
  t_next t' = t_next t /\
  ((r = RJob (Ok None) /\ t' = t /\ forall j, In j js -> ~ due now ex j)
   \/ exists j js', due now ex j /\ (forall x, In x js -> due now ex x -> ~ pg_before x j)
        /\ r = RJob (Ok (Some (after_hand_out now j))) /\ holds_jobs t' js'
        /\ changed_one (j_id j) j (after_hand_out now j) js js').
Proof.
  intros ident t js now ex Ht Hn Hnow Hex Ha. cbn [pg_step].
  pose proof (load_jobs t js now ex Ht Hn Hnow Hex Ha) as H. destruct (pg_load now ex t) as [t' r].
  destruct H as [H0 [[-> H]|[j [js' [H1 [H2 [-> H3]]]]]]]; (split; [exact H0|]).
  - left. auto.
  - right. exists j, js'. auto.
Qed.
Print Assumptions C53_hand_out.

Definition t_two : tbl := pg_run fx_identifier tbl_init
  [(ms, OpEnqueue (req mail 5 (2 * ms))); (ms, OpEnqueue (req mail 1 (9 * ms)))].
Example C53_example :
  exists js, holds_jobs t_two js /\ NoDup (map j_id js)
  /\ match snd (pg_step fx_identifier (10 * ms) t_two (OpLoad mail)) with
     | RJob (Ok (Some j)) => j_id j = 2 /\ j_attempt j = 1 | _ => False end.
Proof.
  eexists. split; [apply read_rows_inv; vm_compute; reflexivity|]. split.
  - repeat constructor; cbn; intuition discriminate.
  - vm_compute. auto.
Qed.

(** * C10, C11 Conflicts *)

(** A unique enqueue either resolves a conflict with one row, changing only what the policy allows,
    or inserts; it inserts exactly when nothing conflicts.  Every stored key stays what it was. *)
Theorem C10_conflict_replacement_postgres : forall ident t js now e,
  holds_jobs t js -> NoDup (map j_id js) -> kept_time now -> kept_request e -> kept_window e -> replaces_something e ->
  t_next t <= 2147483647 ->
  let (t', res) := pg_step ident now t (OpEnqueue e) in
  (exists r j js', In r (t_rows t) /\ represents r j /\ conflicts_pg e r j /\ res = RId (Ok (j_id j))
     /\ t_next t' = t_next t /\ holds_jobs t' js' /\ changed_one (j_id j) j (after_conflict e j) js js'
     /\ map r_uniqueness_key (t_rows t') = map r_uniqueness_key (t_rows t))
  \/ ((forall r j, In r (t_rows t) -> represents r j -> ~ conflicts_pg e r j) /\ res = RId (Ok (t_next t))
      /\ exists r, t' = mk_tbl (t_rows t ++ [r]) (t_next t + 1) /\ represents r (new_job now (t_next t) e)
           /\ r_uniqueness_key r = match eq_criteria e with
                                   | None => None
                                   | Some uq => Some (ident (uc_key uq) (if uc_executor uq then Some (eq_executor e) else None) (uc_statuses uq))
                                   end).
Proof.
  intros ident t js now e Ht Hn Hnow He Hw Hrep Hb. cbn [pg_step].
  pose proof (enqueue_jobs ident t js now e Ht Hn Hnow He Hw Hrep Hb) as H.
  destruct (pg_enqueue ident now e t) as [t' res].
  destruct H as [[r [j [js' [H1 [H2 [H3 [-> H4]]]]]]]|[H1 [-> H2]]]; [left|right; auto].
  exists r, j, js'. split; [exact H1|]. split; [exact H2|]. split; [exact H3|]. split; [reflexivity|]. exact H4.
Qed.
Print Assumptions C10_conflict_replacement_postgres.

(** Without a key, every row that satisfies the rest of the criteria is a conflict, whatever key it
    was stored with: the enqueue returns such a row's id and adds nothing. *)
Theorem C11_keyless_criteria_postgres : forall ident t js now e uq r j,
  holds_jobs t js -> NoDup (map j_id js) -> kept_time now -> kept_request e -> kept_window e -> replaces_something e ->
  t_next t <= 2147483647 ->
  eq_criteria e = Some uq -> uc_key uq = None -> In r (t_rows t) -> represents r j ->
  (uc_executor uq = true -> j_executor j = eq_executor e) -> In (j_status j) (uc_statuses uq) ->
  (forall d, uc_duration uq = Some d -> eq_scheduled_at e - d <= j_scheduled_at j <= eq_scheduled_at e + d) ->
  exists t' id, pg_step ident now t (OpEnqueue e) = (t', RId (Ok id))
    /\ In id (map r_id (t_rows t)) /\ length (t_rows t') = length (t_rows t).
Proof.
  intros ident t js now e uq r j Ht Hn Hnow He Hw Hrep Hb Huq Hk Hr Hrj Hex Hst Hd.
  pose proof (C10_conflict_replacement_postgres ident t js now e Ht Hn Hnow He Hw Hrep Hb) as H.
  destruct (pg_step ident now t (OpEnqueue e)) as [t' res].
  destruct H as [[r' [j' [js' [H1 [H2 [H3 [-> [H4 [H5 [H6 H7]]]]]]]]]]|[H1 _]].
  - exists t', (j_id j'). split; [reflexivity|]. split; [rewrite <- (represents_id r' j' H2); apply in_map, H1|].
    apply (f_equal (@length _)) in H7. rewrite !map_length in H7. exact H7.
  - exfalso. apply (H1 r j Hr Hrj). exists uq. split; [exact Huq|]. split; [intros k Hk'; congruence|].
    split; [intro Hx; symmetry; auto|]. auto.
Qed.
Print Assumptions C11_keyless_criteria_postgres.

Definition crit_open (r : resolution) : criteria := mk_criteria None true None [Scheduled; Executing] r.
Definition crit_keyed (k : Z) : criteria := mk_criteria (Some k) true None [Scheduled; Executing] DoNothing.
Definition replace_both : resolution := Replace (mk_replace true false false true false [Scheduled]).
Definition e_open : enqueuable := ureq mail 9 (99 * ms) (crit_open replace_both).

Example C10_postgres_example :
  kept_request e_open /\ kept_window e_open /\ replaces_something e_open
  /\ snd (pg_step fx_identifier (20 * ms) t_sample (OpEnqueue e_open)) = RId (Ok 1)
  /\ map (fun r => (r_id r, r_priority r, r_scheduled_at r, r_max_attempts r))
       (t_rows (fst (pg_step fx_identifier (20 * ms) t_sample (OpEnqueue e_open))))
     = [(1, 9, 99 * ms, 3); (2, 1, 6 * ms, 3); (3, 0, 4 * ms, 3)].
Proof.
  split.
  { split; [apply clean_by_storable; reflexivity|]. split; [apply clean_by_storable; reflexivity|].
    split; [exact I|]. split; [apply kept_ms; lia|constructor]. }
  split; [intros uq d H Hd; injection H as <-; discriminate|].
  split; [intros uq r H Hr; injection H as <-; injection Hr as <-; left; reflexivity|].
  split; vm_compute; reflexivity.
Qed.

(** * C12 The same decision on both backends *)

Lemma mem_enqueue_length p now m e uq : m_poisoned m = false -> eq_criteria e = Some uq ->
  (length (jobs_of (fst (mem_step p now m (OpEnqueue e)))) = length (jobs_of m)
   <-> exists k, In k (m_jobs m) /\ conflicts_mem now e k).
Proof.
  intros Hp Huq. cbn [mem_step]. unfold mem_enqueue. rewrite Huq. unfold insert_unique_job, matching_jobs. rewrite Hp.
  unfold jobs_of. rewrite !map_length.
  destruct (filter (enqueuable_matches now e) (m_jobs m)) as [|k l] eqn:Ef.
  - unfold insert_new_job. cbn [m_poisoned]. rewrite Hp. cbn [fst]. rewrite notify_jobs. cbn [set_jobs m_jobs].
    rewrite app_length. cbn [length]. split; [lia|]. intros [k [Hk Hc]]. apply enqueuable_matches_spec in Hc.
    assert (H : In k (filter (enqueuable_matches now e) (m_jobs m))) by (apply filter_In; auto). rewrite Ef in H. destruct H.
  - assert (Hk : In k (filter (enqueuable_matches now e) (m_jobs m))) by (rewrite Ef; left; reflexivity).
    apply filter_In in Hk. destruct Hk as [Hk Hm]. split; [intros _; exists k; split; [exact Hk|apply enqueuable_matches_spec, Hm]|].
    intros _. pose proof (with_job_spec m (j_id (job_replace e (kj_job k))) (fun _ => Some (job_replace e (kj_job k))) true Hp) as H.
    unfold mem_update. destruct (with_job m (j_id (job_replace e (kj_job k))) (fun _ => Some (job_replace e (kj_job k))) true) as [m' [u|er|]]; cbn [fst].
    + destruct H as [pre [k0 [post [j' [H1 [_ [_ [_ ->]]]]]]]]. cbn zeta. rewrite notify_jobs, H1. cbn [set_jobs m_jobs].
      rewrite !app_length. reflexivity.
    + destruct H as [-> _]. reflexivity.
    + destruct H as [-> _]. reflexivity.
Qed.

(** When the criteria have neither key nor duration and no stored job has a key, both backends agree
    whether the request conflicts, hence whether a job is added (missing: keys and durations, where
    they differ). *)
Theorem C12_same_decision_partial : forall p ident now m t e uq,
  m_poisoned m = false -> holds_jobs t (jobs_of m) -> NoDup (map j_id (jobs_of m)) ->
  kept_time now -> kept_request e -> replaces_something e -> t_next t <= 2147483647 ->
  eq_criteria e = Some uq -> uc_key uq = None -> uc_duration uq = None ->
  (forall k, In k (m_jobs m) -> kj_key k = None) ->
  let m' := fst (mem_step p now m (OpEnqueue e)) in
  let t' := fst (pg_step ident now t (OpEnqueue e)) in
  ((exists k, In k (m_jobs m) /\ conflicts_mem now e k)
     <-> (exists r j, In r (t_rows t) /\ represents r j /\ conflicts_pg e r j))
  /\ (length (jobs_of m') = length (jobs_of m) <-> length (t_rows t') = length (t_rows t)).
Proof.
  intros p ident now m t e uq Hp Ht Hn Hnow He Hrep Hb Huq Hk Hd Hkeys.
  assert (Hw : kept_window e) by (intros uq' d Hu Hd'; congruence).
  assert (Hiff : (exists k, In k (m_jobs m) /\ conflicts_mem now e k)
     <-> (exists r j, In r (t_rows t) /\ represents r j /\ conflicts_pg e r j)).
  { split.
    - intros [k [Hin [uq' [E [H1 [H2 [H3 _]]]]]]]. assert (uq' = uq) as -> by congruence.
      assert (Hj : In (kj_job k) (jobs_of m)) by (apply in_map; exact Hin).
      destruct (forall2_in_r _ _ _ _ Ht Hj) as [r [Hr Hrj]]. exists r, (kj_job k). split; [exact Hr|]. split; [exact Hrj|].
      exists uq. split; [exact Huq|]. split; [congruence|]. split; [exact H2|]. split; [exact H3|congruence].
    - intros [r [j [Hr [Hrj [uq' [E [H1 [H2 [H3 _]]]]]]]]]. assert (uq' = uq) as -> by congruence.
      destruct (forall2_in_l _ _ _ _ Ht Hr) as [j' [Hj' Hrj']]. pose proof (represents_fun r j j' Hrj Hrj') as <-.
      apply in_map_iff in Hj'. destruct Hj' as [k [<- Hin]]. exists k. split; [exact Hin|].
      exists uq. split; [exact Huq|]. split; [rewrite (Hkeys k Hin); exact Hk|]. split; [exact H2|]. split; [exact H3|congruence]. }
  split; [exact Hiff|].
  pose proof (C10_conflict_replacement_postgres ident t (jobs_of m) now e Ht Hn Hnow He Hw Hrep Hb) as Hpg.
  destruct (pg_step ident now t (OpEnqueue e)) as [t' res].
  assert (Hpgl : length (t_rows t') = length (t_rows t) <-> exists r j, In r (t_rows t) /\ represents r j /\ conflicts_pg e r j).
  { destruct Hpg as [[r' [j' [js' [H1 [H2 [H3 [-> [H4 [H5 [H6 H7]]]]]]]]]]|[H1 [_ [r [-> _]]]]].
    - apply (f_equal (@length _)) in H7. rewrite !map_length in H7. split; [eauto|intros _; exact H7].
    - cbn [t_rows]. rewrite app_length. cbn. split; [lia|]. intros [r0 [j [Hr [Hrj Hc]]]]. exfalso. exact (H1 r0 j Hr Hrj Hc). }
  cbn [fst]. rewrite Hpgl, <- Hiff.
  apply (mem_enqueue_length p now m e uq); assumption.
Qed.
Print Assumptions C12_same_decision_partial.

Example C12_example :
  m_poisoned m_twin = false /\ holds_jobs t_sample (jobs_of m_twin) /\ eq_criteria e_open = Some (crit_open replace_both)
  /\ (forall k, In k (m_jobs m_twin) -> kj_key k = None) /\ t_next t_sample <= 2147483647
  /\ length (jobs_of (fst (mem_step Debug (20 * ms) m_twin (OpEnqueue e_open)))) = 3%nat
  /\ length (t_rows (fst (pg_step fx_identifier (20 * ms) t_sample (OpEnqueue e_open)))) = 3%nat.
Proof.
  split; [reflexivity|]. split; [assert (E : jobs_of m_twin = js_sample) by (vm_compute; reflexivity); rewrite E; exact sample_holds|].
  split; [reflexivity|]. split; [intros k Hk; list_in Hk; repeat (destruct Hk as [<-|Hk]; [reflexivity|]); destruct Hk|].
  split; [apply Z.leb_le; vm_compute; reflexivity|]. split; vm_compute; reflexivity.
Qed.

(** The same requests, in the same order, on both: they differ as soon as there is a duration (the
    window is around the current time in memory, around the new schedule on Postgres), when a
    keyless request meets a keyed job, and when a keyed request is repeated. *)
Theorem C12_same_decision_refuted :
  let within d := mk_criteria None true (Some d) [Scheduled] DoNothing in
  let both e e' :=
    (length (m_jobs (mem_run Debug mem_init [(ms, OpEnqueue e); (2 * ms, OpEnqueue e')])),
     length (t_rows (pg_run fx_identifier tbl_init [(ms, OpEnqueue e); (2 * ms, OpEnqueue e')]))) in
  (* one second apart, both far in the future, duration of five seconds *)
  both (req mail 0 (100000 * ms)) (ureq mail 0 (101000 * ms) (within (5000 * ms))) = (2%nat, 1%nat)
  (* a keyless request after a keyed one *)
  /\ both (ureq mail 0 (9 * ms) (crit_keyed 77)) (ureq mail 0 (9 * ms) (crit_open DoNothing)) = (2%nat, 1%nat)
  (* the same keyed request twice *)
  /\ both (ureq mail 0 (9 * ms) (crit_keyed 77)) (ureq mail 0 (9 * ms) (crit_keyed 77)) = (1%nat, 2%nat).
Proof. vm_compute. repeat split; reflexivity. Qed.
Print Assumptions C12_same_decision_refuted.

(** * C52, C44 Uniqueness by key *)

(** A keyed enqueue conflicts exactly with rows whose stored identifier happens to equal the key
    itself; the identifier of the request it was enqueued with plays no part.  So if no row's
    identifier equals the key, the request is inserted, however many equal requests were before. *)
Theorem C52_keyed_enqueue_inserts : forall ident t js now e uq k,
  holds_jobs t js -> NoDup (map j_id js) -> kept_time now -> kept_request e -> kept_window e -> replaces_something e ->
  t_next t <= 2147483647 -> eq_criteria e = Some uq -> uc_key uq = Some k ->
  (forall r, In r (t_rows t) -> r_uniqueness_key r <> Some k) ->
  exists r, pg_step ident now t (OpEnqueue e) = (mk_tbl (t_rows t ++ [r]) (t_next t + 1), RId (Ok (t_next t)))
    /\ r_uniqueness_key r = Some (ident (Some k) (if uc_executor uq then Some (eq_executor e) else None) (uc_statuses uq)).
Proof.
  intros ident t js now e uq k Ht Hn Hnow He Hw Hrep Hb Huq Hk Hno.
  pose proof (C10_conflict_replacement_postgres ident t js now e Ht Hn Hnow He Hw Hrep Hb) as H.
  destruct (pg_step ident now t (OpEnqueue e)) as [t' res].
  destruct H as [[r [j [js' [H1 [_ [[uq' [E [H3 _]]] _]]]]]]|[_ [-> [r [-> [_ H3]]]]]].
  - exfalso. assert (uq' = uq) as -> by congruence. exact (Hno r H1 (H3 k Hk)).
  - exists r. split; [reflexivity|]. rewrite Huq, Hk in H3. exact H3.
Qed.
Print Assumptions C52_keyed_enqueue_inserts.

Definition e_keyed : enqueuable := ureq mail 9 (99 * ms) (crit_keyed 77).
Example C52_example :
  kept_request e_keyed /\ kept_window e_keyed /\ replaces_something e_keyed
  /\ (forall r, In r (t_rows t_sample) -> r_uniqueness_key r <> Some 77)
  /\ fx_identifier (Some 77) (Some mail) [Scheduled; Executing] = 6065930268529691094
  /\ snd (pg_step fx_identifier (20 * ms) t_sample (OpEnqueue e_keyed)) = RId (Ok 4).
Proof.
  split.
  { split; [apply clean_by_storable; reflexivity|]. split; [apply clean_by_storable; reflexivity|].
    split; [exact I|]. split; [apply kept_ms; lia|constructor]. }
  split; [intros uq d H Hd; injection H as <-; discriminate|].
  split; [intros uq r H Hr; injection H as <-; discriminate|].
  split; [intros r Hr; list_in Hr; repeat (destruct Hr as [<-|Hr]; [discriminate|]); destruct Hr|].
  split; vm_compute; reflexivity.
Qed.

(** With the hash the code uses: the same keyed request, enqueued twice, is stored twice. *)
Theorem C52_keyed_enqueue_refuted : exists e uq k t,
  eq_criteria e = Some uq /\ uc_key uq = Some k /\ In Scheduled (uc_statuses uq)
  /\ t = pg_run fx_identifier tbl_init [(ms, OpEnqueue e); (2 * ms, OpEnqueue e)]
  /\ map r_id (t_rows t) = [1; 2] /\ (forall r, In r (t_rows t) -> r_status r = "scheduled"%string).
Proof.
  exists e_keyed. do 3 eexists. split; [reflexivity|]. split; [reflexivity|]. split; [left; reflexivity|].
  split; [reflexivity|]. split; [vm_compute; reflexivity|].
  intros r Hr. list_in Hr. destruct Hr as [<-|[<-|[]]]; reflexivity.
Qed.
Print Assumptions C52_keyed_enqueue_refuted.

(** Even a different request is taken for a duplicate when its key equals a stored identifier. *)
Theorem C52_wrong_conflict_refuted : exists e e' t r,
  t = pg_run fx_identifier tbl_init [(ms, OpEnqueue e)]
  /\ pg_step fx_identifier (2 * ms) t (OpEnqueue e') = (t, RId (Ok r))
  /\ (forall uq uq', eq_criteria e = Some uq -> eq_criteria e' = Some uq' -> uc_key uq <> uc_key uq').
Proof.
  exists e_keyed, (ureq mail 9 (99 * ms) (crit_keyed 6065930268529691094)). do 2 eexists.
  split; [reflexivity|]. split; [vm_compute; reflexivity|].
  intros uq uq' H H'. injection H as <-. injection H' as <-. discriminate.
Qed.
Print Assumptions C52_wrong_conflict_refuted.

(** Cron jobs use a key, so two nodes' ticks for one instant give two jobs on Postgres too. *)
Definition pg_cron_tick (hash : Z) (n : time) (now : time) (t : tbl) : tbl :=
  fst (cron_enqueue text_codec mailer "report"%string hash now n
         (fun t e => match pg_step fx_identifier now t (OpEnqueue e) with
                     | (t', RId r) => (t', r) | (t', _) => (t', Panic) end) t).
Theorem C44_postgres_one_job_refuted : exists t n js,
  t = pg_cron_tick 17 n (92 * ms) (pg_cron_tick 17 n (90 * ms) tbl_init) /\ holds_jobs t js
  /\ length (jobs_for mail n js) = 2%nat
  /\ forall j, In j js -> j_data j = JStr "report"%string /\ j_status j = Scheduled.
Proof.
  eexists. exists (1 * ns_per_s). eexists. split; [reflexivity|].
  split; [apply read_rows_inv; vm_compute; reflexivity|]. split; [vm_compute; reflexivity|].
  intros j Hj. destruct Hj as [<-|[<-|[]]]; split; reflexivity.
Qed.
Print Assumptions C44_postgres_one_job_refuted.

(** * C59 Pruning *)

Theorem C59_prune_by_age : forall ident t js now ps d,
  holds_jobs t js -> NoDup (map j_id js) -> clean_spec ps -> kept_cutoff now ps -> ps_by ps = MaxAge d ->
  let (t', r) := pg_step ident now t (OpPrune ps) in
  r = RUnit (Ok tt) /\ t_next t' = t_next t /\ exists js', holds_jobs t' js'
    /\ exactly_removed (fun j => in_scope ps j /\ beyond_age now d (ps_status ps) j) js js'.
Proof.
  intros ident t js now ps d Ht Hn Hc Hk Hby. cbn [pg_step].
  pose proof (prune_age_jobs t js now ps d Ht Hn Hc Hk Hby) as H. destruct (pg_prune now ps t) as [t' r].
  destruct H as [-> H]. auto.
Qed.
Print Assumptions C59_prune_by_age.

(** At most [n] jobs in scope are kept, jobs are removed only if [n] are kept, and each kept job
    stands before each removed one; jobs out of scope stay. *)
Theorem C59_prune_by_length : forall ident t js now ps n,
  holds_jobs t js -> NoDup (map j_id js) -> clean_spec ps -> 0 <= n -> ps_by ps = MaxLength n ->
  let (t', r) := pg_step ident now t (OpPrune ps) in
  r = RUnit (Ok tt) /\ t_next t' = t_next t /\ exists js' gone kept rest, holds_jobs t' js' /\ without js gone js'
    /\ Permutation js' (kept ++ rest)
    /\ (forall j, In j kept -> in_scope ps j) /\ (forall j, In j gone -> in_scope ps j) /\ (forall j, In j rest -> ~ in_scope ps j)
    /\ Z.of_nat (length kept) <= n /\ (gone <> [] -> Z.of_nat (length kept) = n)
    /\ (forall a b, In a kept -> In b gone -> kept_before (ps_status ps) a b).
Proof.
  intros ident t js now ps n Ht Hn Hc Hk Hby. cbn [pg_step].
  pose proof (prune_length_jobs t js now ps n Ht Hn Hc Hk Hby) as H. destruct (pg_prune now ps t) as [t' r].
  destruct H as [-> H]. auto.
Qed.
Print Assumptions C59_prune_by_length.

Definition h_done : list (time * mop) :=
  [(ms, OpEnqueue (req mail 0 (10 * ms))); (ms, OpEnqueue (req mail 0 (30 * ms))); (ms, OpEnqueue (req mail 0 (20 * ms)));
   (ms, OpEnqueue (req push 0 (15 * ms)));
   (40 * ms, OpComplete 1); (40 * ms, OpComplete 2); (40 * ms, OpComplete 3); (40 * ms, OpComplete 4)].
Definition t_done : tbl := pg_run fx_identifier tbl_init h_done.
Definition by_length : prune_spec := mk_prune_spec Complete (MaxLength 1) (Except [push]).
Definition by_age : prune_spec := mk_prune_spec Complete (MaxAge (85 * ms)) (Only [mail; push]).
Example C59_example :
  (exists js, holds_jobs t_done js /\ NoDup (map j_id js))
  /\ clean_spec by_length /\ clean_spec by_age /\ kept_cutoff (100 * ms) by_age
  /\ map r_id (t_rows (fst (pg_step fx_identifier (100 * ms) t_done (OpPrune by_length)))) = [2; 4]
  /\ map r_id (t_rows (fst (pg_step fx_identifier (100 * ms) t_done (OpPrune by_age)))) = [2; 3; 4].
Proof.
  assert (Hm : clean mail) by (apply clean_by_storable; reflexivity).
  assert (Hp : clean push) by (apply clean_by_storable; reflexivity).
  split.
  { eexists. split; [apply read_rows_inv; vm_compute; reflexivity|]. repeat constructor; cbn; intuition discriminate. }
  split; [constructor; [exact Hp|constructor]|]. split; [constructor; [exact Hm|constructor; [exact Hp|constructor]]|].
  split; [split; [replace (100 * ms - 85 * ms) with (15 * ms) by reflexivity; apply kept_ms; lia|vm_compute; split; discriminate]|].
  split; vm_compute; reflexivity.
Qed.
