(** What the Postgres backend refuses: texts with a zero byte, times before 4714 BC, statements that are
    not SQL. *)
From Coq Require Import Ascii Permutation.
From Verif Require Import Base Chrono Types TypesProofs Query Memory MemSpec Samples PgRow PgQuery FxHash Pg PgSpec PgProofs
  PgQueryProofs PgOps PropsPg PgConc PgConcSpec PgListen PgListenSpec.

(** * Vocabulary *)

(** Before the first microsecond of Julian day 0, which is 2440588 days before 1970. *)
Definition early (t : time) : Prop := t <= -2440588 * (24 * 60 * 60 * 1000000000) - 1000.

(** A value bound to a statement is not accepted. *)
Inductive refused_error : exec_error -> Prop :=
| re_message e : ~ clean (ee_message e) -> refused_error e
| re_type e s : ee_type e = EOther s -> ~ clean s -> refused_error e.
Inductive refused_fields (data metadata : json) (tags : list string) (at_ : time) : Prop :=
| rf_data : ~ clean_json data -> refused_fields data metadata tags at_
| rf_metadata : ~ clean_json metadata -> refused_fields data metadata tags at_
| rf_tag tag : In tag tags -> ~ clean tag -> refused_fields data metadata tags at_
| rf_at : early at_ -> refused_fields data metadata tags at_.
Definition refused_request (e : enqueuable) : Prop :=
  ~ clean (eq_executor e) \/ refused_fields (eq_data e) (eq_metadata e) (eq_tags e) (eq_scheduled_at e).

(** [q'] is part of the query [q]. *)
Inductive part_of (q' : query) : query -> Prop :=
| po_self : part_of q' q'
| po_not q : part_of q' q -> part_of q' (QNot q)
| po_and q qs : In q qs -> part_of q' q -> part_of q' (QAnd qs)
| po_or q qs : In q qs -> part_of q' q -> part_of q' (QOr qs).
Inductive refused_leaf : query -> Prop :=
| rl_executor e : ~ clean e -> refused_leaf (QExecutorEqual e)
| rl_data v : ~ clean_json v -> refused_leaf (QDataEquals v)
| rl_metadata v : ~ clean_json v -> refused_leaf (QMetadataEquals v)
| rl_all t ts : In t ts -> ~ clean t -> refused_leaf (QTagsAllOf ts)
| rl_one t ts : In t ts -> ~ clean t -> refused_leaf (QTagsOneOf ts)
| rl_before t : early t -> refused_leaf (QScheduledAtBefore t)
| rl_after t : early t -> refused_leaf (QScheduledAtAfter t)
| rl_at t : early t -> refused_leaf (QScheduledAtEqual t).

(** The cut-off of a prune by age. *)
Definition cut_off (now : time) (ps : prune_spec) (d : delta) : time :=
  match ps_status ps with Complete | Cancelled | Discarded => now - d | _ => now + d end.
(** It exists. *)
Definition cut_off_is_date (now : time) (ps : prune_spec) : Prop :=
  forall d, ps_by ps = MaxAge d -> dt_min <= cut_off now ps d <= dt_max.
Definition names (ps : prune_spec) : list string := match ps_executors ps with Except l | Only l => l end.

(** The operation binds something that is not accepted. *)
Inductive refused (now : time) : mop -> Prop :=
| rd_enqueue e : eq_criteria e = None -> refused_request e -> refused now (OpEnqueue e)
| rd_load ex : ~ clean ex -> refused now (OpLoad ex)
| rd_retryable id t e : early t \/ refused_error e -> refused now (OpRetryable id t e)
| rd_discarded id e : refused_error e -> refused now (OpDiscarded id e)
| rd_cancelled id e : refused_error e -> refused now (OpCancelled id e)
| rd_snoozed id t : early t -> refused now (OpSnoozed id t)
| rd_rerun id : early now -> refused now (OpRerun id)
| rd_update j : refused_fields (j_data j) (j_metadata j) (j_tags j) (j_scheduled_at j) -> refused now (OpUpdate j)
| rd_prune ps : cut_off_is_date now ps -> (exists ex, In ex (names ps) /\ ~ clean ex) -> refused now (OpPrune ps)
| rd_prune_age ps d : cut_off_is_date now ps -> ps_by ps = MaxAge d -> early (cut_off now ps d) -> refused now (OpPrune ps)
| rd_query q q' : part_of q' q -> refused_leaf q' -> refused now (OpQuery q).

(** The answer is the error for a bad state. *)
Definition bad_state (r : mres) : Prop :=
  r = RId (Err BadState) \/ r = RJob (Err BadState) \/ r = RUnit (Err BadState) \/ r = RJobs (Err BadState).

(** * Lemmas *)

Lemma early_refused t : early t <-> time_ok t = false.
Proof.
  unfold early, time_ok, bind_time. destruct (C64_stored_time t) as [[k Hk] [H1 H2]].
  unfold pg_first, pg_epoch, ns_per_s, time in *. split.
  - intro H. replace (_ <=? pg_time t) with false; [reflexivity|]. symmetry. apply Z.leb_gt. lia.
  - intro H. destruct (Z.leb_spec (946684800 * 1000000000 - 211813488000000000 * 1000) (pg_time t)); [discriminate|]. lia.
Qed.
Lemma not_clean s : ~ clean s <-> storable s = false.
Proof. rewrite <- storable_clean. destruct (storable s); intuition congruence. Qed.
Lemma not_clean_json v : ~ clean_json v <-> json_storable v = false.
Proof. rewrite <- json_storable_clean. destruct (json_storable v); intuition congruence. Qed.
Lemma not_clean_in s l : In s l -> ~ clean s -> forallb storable l = false.
Proof.
  intros Hi Hs. destruct (forallb storable l) eqn:E; [|reflexivity]. rewrite forallb_forall in E. apply E in Hi. apply storable_clean in Hi. contradiction.
Qed.
Lemma refused_fields_spec d m ts t : refused_fields d m ts t ->
  json_storable d && json_storable m && forallb storable ts && time_ok t = false.
Proof.
  intros [H|H|tag Hi H|H].
  - apply not_clean_json in H. rewrite H. reflexivity.
  - apply not_clean_json in H. rewrite H, andb_false_r. reflexivity.
  - rewrite (not_clean_in tag ts Hi H), andb_false_r. reflexivity.
  - apply early_refused in H. rewrite H, andb_false_r. reflexivity.
Qed.
Lemma refused_request_spec e : refused_request e -> pg_request_ok e = false.
Proof.
  unfold pg_request_ok. intros [H|H]; [apply not_clean in H; rewrite H; reflexivity|].
  apply refused_fields_spec in H. destruct (storable (eq_executor e)), (json_storable (eq_data e)), (json_storable (eq_metadata e)),
    (time_ok (eq_scheduled_at e)), (forallb storable (eq_tags e)); cbn in *; congruence.
Qed.
Lemma refused_error_spec e : refused_error e -> pg_error_ok e = false.
Proof.
  unfold pg_error_ok. intros [e' H|e' s He H]; apply not_clean in H; [rewrite H, andb_false_r; reflexivity|].
  rewrite He. cbn [error_text]. rewrite H. reflexivity.
Qed.

Lemma joined_in kw x l t : In x l -> In t x -> In t (joined kw l).
Proof.
  induction l as [|y l IH]; intros Hx Ht; [destruct Hx|]. destruct l as [|z l].
  - destruct Hx as [<-|[]]. exact Ht.
  - cbn [joined]. apply in_or_app. destruct Hx as [<-|Hx]; [left; exact Ht|]. right. right. exact (IH Hx Ht).
Qed.
Lemma part_tokens q' q t : part_of q' q -> In t (handle_query q') -> In t (handle_query q).
Proof.
  intros H Ht. induction H as [|q H IH|q qs Hq H IH|q qs Hq H IH]; [exact Ht|right; exact IH| |];
    cbn [handle_query]; apply (joined_in _ (handle_query q)); auto using in_map.
Qed.
Lemma refused_leaf_spec q : refused_leaf q -> exists b, In (TBind b) (handle_query q) /\ bound_ok b = false.
Proof.
  intros [e H|v H|v H|t ts Hi H|t ts Hi H|t H|t H|t H]; (eexists; split; [right; right; left; reflexivity|]); cbn [bound_ok].
  - apply not_clean, H.
  - apply not_clean_json, H.
  - apply not_clean_json, H.
  - exact (not_clean_in t ts Hi H).
  - exact (not_clean_in t ts Hi H).
  - apply early_refused in H. exact H.
  - apply early_refused in H. exact H.
  - apply early_refused in H. exact H.
Qed.
Lemma cut_off_doomed now ps d rows : ps_by ps = MaxAge d -> cut_off_is_date now ps ->
  exists l, pg_doomed now ps rows = Some (if time_ok (cut_off now ps d) then Some l else None).
Proof.
  intros Hd Hc. specialize (Hc d Hd). unfold pg_doomed, cut_off in *. rewrite Hd.
  assert (Hs : forall c, dt_min <= c <= dt_max -> in_dt c = true).
  { intros c [H1 H2]. unfold in_dt. apply Z.leb_le in H1. apply Z.leb_le in H2. rewrite H1, H2. reflexivity. }
  unfold dt_sub, dt_add.
  destruct (ps_status ps); cbn [in_past]; rewrite (Hs _ Hc); eexists; reflexivity.
Qed.

(** * C76 Refusals *)

(** Whatever the table: an operation that binds a text with a zero byte, or a time before 4714 BC, is an
    error for a bad state and changes nothing. *)
Theorem C76_refused : forall ident now t o, refused now o ->
  fst (pg_step ident now t o) = t /\ bad_state (snd (pg_step ident now t o)).
Proof.
  intros ident now t o H. unfold bad_state. destruct H as [e Hc H|ex H|id at_ e H|id e H|id e H|id at_ H|id H|j H|ps Hc [ex [Hi H]]|ps d Hc Hd H|q q' Hp H]; cbn [pg_step].
  - unfold pg_enqueue. rewrite Hc. unfold pg_insert. rewrite (refused_request_spec e H). cbn. auto.
  - unfold pg_load. apply not_clean in H. rewrite H. cbn. auto.
  - unfold pg_retryable, pg_update_by_id. replace (pg_error_ok e && time_ok at_) with false; [cbn; auto|].
    destruct H as [H|H]; [apply early_refused in H; rewrite H, andb_false_r; reflexivity|rewrite (refused_error_spec e H); reflexivity].
  - unfold pg_discarded, pg_update_by_id. rewrite (refused_error_spec e H). cbn. auto.
  - unfold pg_cancelled, pg_update_by_id. rewrite (refused_error_spec e H). cbn. auto.
  - unfold pg_snoozed, pg_update_by_id. apply early_refused in H. rewrite H. cbn. auto.
  - unfold pg_rerun, pg_update_by_id. apply early_refused in H. rewrite H. cbn. auto.
  - unfold pg_update, pg_update_by_id. rewrite (refused_fields_spec _ _ _ _ H). cbn. auto.
  - unfold pg_prune.
    assert (Hs : pg_spec_ok (ps_executors ps) = false).
    { unfold pg_spec_ok, names in *. destruct (ps_executors ps); exact (not_clean_in ex _ Hi H). }
    destruct (ps_by ps) as [d|n] eqn:Eb.
    + destruct (cut_off_doomed now ps d (t_rows t) Eb Hc) as [l ->]. destruct (time_ok (cut_off now ps d)); [rewrite Hs|]; cbn; auto.
    + unfold pg_doomed. rewrite Eb, Hs. cbn. auto.
  - unfold pg_prune. destruct (cut_off_doomed now ps d (t_rows t) Hd Hc) as [l ->]. apply early_refused in H. rewrite H. cbn. auto.
  - unfold pg_query, select_rows. destruct (refused_leaf_spec q' H) as [b [Hb Hr]].
    replace (bounds_ok (handle_query q)) with false; [destruct (parse_where (handle_query q)); cbn; auto|].
    symmetry. apply not_true_is_false. intro Hok. unfold bounds_ok in Hok. rewrite forallb_forall in Hok.
    specialize (Hok _ (part_tokens q' q _ Hp Hb)). cbn in Hok. congruence.
Qed.
Print Assumptions C76_refused.

(** The same goes for the query for the next job: a stream whose executor has a zero byte in its name gets
    only errors. *)
Theorem C76_refused_stream : forall ident s k st now,
  nth_error (n_streams s) k = Some st -> s_phase st = PCheck -> ~ clean (s_executor st) ->
  pg_next_available (s_executor st) (q_tbl (n_db s)) = Err BadState
  /\ option_map s_phase (nth_error (n_streams (fst (nstep ident s (NStream k now)))) k) = Some (PYield (Err BadState)).
Proof.
  intros ident s k st now Hk Hp H. apply not_clean in H.
  assert (E : pg_next_available (s_executor st) (q_tbl (n_db s)) = Err BadState) by (unfold pg_next_available; rewrite H; reflexivity).
  split; [exact E|]. cbn [nstep]. rewrite Hk. unfold pstream_step. rewrite Hp, E. cbn [fst n_streams].
  assert (Hset : forall (l : list pstream) i x y, nth_error l i = Some x -> nth_error (set_nth i y l) i = Some y).
  { induction l as [|a l IH]; intros [|i] x y Hx; cbn in *; try discriminate; auto. exact (IH _ _ _ Hx). }
  rewrite (Hset _ _ _ _ Hk). reflexivity.
Qed.
Print Assumptions C76_refused_stream.

(** A prune whose cut-off is no date panics, and changes nothing. *)
Theorem C76_prune_panics : forall ident now t ps, ~ cut_off_is_date now ps ->
  pg_step ident now t (OpPrune ps) = (t, RUnit Panic).
Proof.
  intros ident now t ps H. cbn [pg_step]. unfold pg_prune.
  assert (E : pg_doomed now ps (t_rows t) = None); [|rewrite E; reflexivity].
  unfold cut_off_is_date in H. unfold pg_doomed. destruct (ps_by ps) as [d|n]; [|exfalso; apply H; discriminate].
  assert (Hs : forall c, ~ (dt_min <= c <= dt_max) -> in_dt c = false).
  { intros c Hc. unfold in_dt. destruct (Z.leb_spec dt_min c), (Z.leb_spec c dt_max); try reflexivity. exfalso. apply Hc. lia. }
  assert (Hn : ~ (dt_min <= cut_off now ps d <= dt_max)) by (intro Hd; apply H; intros d' E; injection E as <-; exact Hd).
  unfold cut_off in Hn. unfold dt_sub, dt_add. destruct (ps_status ps); cbn [in_past]; rewrite (Hs _ Hn); reflexivity.
Qed.
Print Assumptions C76_prune_panics.

(** The cut-offs of a uniqueness window. *)
Definition window_is_dates (uq : criteria) (at_ : time) : Prop :=
  forall d, uc_duration uq = Some d -> dt_min <= at_ - d <= dt_max /\ dt_min <= at_ + d <= dt_max.
(** A replacement changes nothing, which is not SQL, or binds something that is not accepted. *)
Definition refused_replacement (rp : replace_spec) (e : enqueuable) : Prop :=
  (rp_scheduled_at rp = false /\ rp_data rp = false /\ rp_metadata rp = false /\ rp_priority rp = false /\ rp_max_attempts rp = false)
  \/ (rp_scheduled_at rp = true /\ early (eq_scheduled_at e))
  \/ (rp_data rp = true /\ ~ clean_json (eq_data e)) \/ (rp_metadata rp = true /\ ~ clean_json (eq_metadata e)).

Lemma window_dates uq at_ : window_is_dates uq at_ ->
  pg_window uq at_ = Some (match uc_duration uq with Some d => Some (at_ - d, at_ + d) | None => None end).
Proof.
  intro H. unfold pg_window. destruct (uc_duration uq) as [d|] eqn:E; [|reflexivity]. destruct (H d E) as [[H1 H2] [H3 H4]].
  unfold dt_sub, dt_add, in_dt. apply Z.leb_le in H1, H2, H3, H4. rewrite H1, H2, H3, H4. reflexivity.
Qed.
Lemma refused_replacement_spec rp e id t : refused_replacement rp e -> pg_replace rp e id t = None.
Proof.
  unfold refused_replacement, pg_replace. intro H.
  assert (Hf : pg_assignments rp e = [] \/ forallb fst (pg_assignments rp e) = false).
  { unfold pg_assignments. destruct H as [[-> [-> [-> [-> ->]]]]|[[-> H]|[[-> H]|[-> H]]]]; [left; reflexivity| | |]; right; rewrite !forallb_app; cbn.
    - apply early_refused in H. rewrite H. reflexivity.
    - apply not_clean_json in H. rewrite H. cbn. apply andb_false_r.
    - apply not_clean_json in H. rewrite H. cbn. rewrite !andb_false_r. reflexivity. }
  destruct Hf as [->|Hf]; [reflexivity|]. destruct (pg_assignments rp e); [reflexivity|]. rewrite Hf. reflexivity.
Qed.

(** Unique enqueues: first the window must be dates, else there is a panic; then the query for a conflict
    must be accepted; then, if nothing conflicts, the new row; if something does, the replacement.  A
    request that is ignored because of a conflict is not checked any further. *)
Theorem C76_unique_enqueue : forall ident t js now e uq,
  eq_criteria e = Some uq -> holds_jobs t js ->
  let out := pg_step ident now t (OpEnqueue e) in
  let is_conflict r j := In r (t_rows t) /\ represents r j /\ conflicts_pg e r j in
  (~ window_is_dates uq (eq_scheduled_at e) -> out = (t, RId Panic))
  /\ (window_is_dates uq (eq_scheduled_at e) ->
      (uc_executor uq = true /\ ~ clean (eq_executor e))
      \/ (exists d, uc_duration uq = Some d /\ (early (eq_scheduled_at e - d) \/ early (eq_scheduled_at e + d))) ->
      out = (t, RId (Err BadState)))
  /\ ((uc_executor uq = true -> clean (eq_executor e)) -> kept_window e ->
      ((forall r j, ~ is_conflict r j) -> refused_request e -> out = (t, RId (Err BadState)))
      /\ ((exists r j, is_conflict r j) ->
          (uc_on_conflict uq = DoNothing -> exists r j, is_conflict r j /\ out = (t, RId (Ok (j_id j))))
          /\ (forall rp, uc_on_conflict uq = Replace rp -> (forall r j, is_conflict r j -> ~ In (j_status j) (rp_for_statuses rp)) ->
                exists r j, is_conflict r j /\ out = (t, RId (Ok (j_id j))))
          /\ (forall rp, uc_on_conflict uq = Replace rp -> (forall r j, is_conflict r j -> In (j_status j) (rp_for_statuses rp)) ->
                refused_replacement rp e -> out = (t, RId (Err BadState))))).
Proof.
  intros ident t js now e uq Huq Hjs out is_conflict. unfold out. cbn [pg_step]. unfold pg_enqueue. rewrite Huq. unfold pg_insert_unique.
  split; [|split].
  - intro H. assert (E : pg_window uq (eq_scheduled_at e) = None); [|rewrite E; reflexivity].
    unfold window_is_dates in H. unfold pg_window. destruct (uc_duration uq) as [d|]; [|exfalso; apply H; discriminate].
    unfold dt_sub, dt_add, in_dt.
    destruct (Z.leb_spec dt_min (eq_scheduled_at e - d)), (Z.leb_spec (eq_scheduled_at e - d) dt_max),
      (Z.leb_spec dt_min (eq_scheduled_at e + d)), (Z.leb_spec (eq_scheduled_at e + d) dt_max); try reflexivity.
    exfalso. apply H. intros d' E. injection E as <-. auto.
  - intros Hw H. rewrite (window_dates uq _ Hw). unfold pg_window_ok.
    destruct H as [[-> H]|[d [-> H]]]; [apply not_clean in H; rewrite H; reflexivity|].
    replace (time_ok (eq_scheduled_at e - d) && time_ok (eq_scheduled_at e + d)) with false; [rewrite andb_false_r; reflexivity|].
    destruct H as [H|H]; apply early_refused in H; rewrite H; [reflexivity|rewrite andb_false_r; reflexivity].
  - intros He Hk. destruct (window_kept e uq Huq Hk He) as [w [-> [-> Hc]]]. cbn [negb].
    assert (Hrep : forall r, In r (t_rows t) -> exists j, represents r j).
    { intros r Hr. clear -Hjs Hr. unfold holds_jobs in Hjs. induction Hjs as [|r0 x l js' H Hf IH]; [destruct Hr|].
      destruct Hr as [->|Hr]; [exists x; exact H|exact (IH Hr)]. }
    split.
    + intros Hno Href. destruct (find (pg_conflict uq (eq_executor e) w) (t_rows t)) as [r|] eqn:Ef.
      * apply find_some in Ef. destruct Ef as [Hr Hx]. destruct (Hrep r Hr) as [j Hj]. apply (Hc r j Hj) in Hx.
        exfalso. apply (Hno r j). split; auto.
      * unfold pg_insert. rewrite (refused_request_spec e Href). reflexivity.
    + intros [r0 [j0 [Hr0 [Hj0 Hx0]]]].
      destruct (find (pg_conflict uq (eq_executor e) w) (t_rows t)) as [r|] eqn:Ef.
      2:{ apply (find_none _ _ Ef) in Hr0. apply (Hc r0 j0 Hj0) in Hx0. congruence. }
      apply find_some in Ef. destruct Ef as [Hr Hx]. destruct (Hrep r Hr) as [j Hj]. apply (Hc r j Hj) in Hx.
      assert (Hcf : is_conflict r j) by (split; auto). assert (Hid : r_id r = j_id j) by apply Hj.
      assert (Hst : forall l, existsb (fun s => String.eqb (label s) (r_status r)) l = true <-> In (j_status j) l).
      { intro l. rewrite <- (in_labels r j l Hj), !existsb_exists. split.
        - intros [s [Hs E]]. exists (label s). split; [apply in_map, Hs|]. rewrite String.eqb_sym. exact E.
        - intros [x [Hs E]]. apply in_map_iff in Hs. destruct Hs as [s [<- Hs]]. exists s. split; [exact Hs|]. rewrite String.eqb_sym. exact E. }
      unfold pg_resolve. split; [|split].
      * intros ->. exists r, j. split; [exact Hcf|]. rewrite Hid. reflexivity.
      * intros rp -> Hn. exists r, j. split; [exact Hcf|]. specialize (Hn r j Hcf). specialize (Hst (rp_for_statuses rp)).
        destruct (existsb _ (rp_for_statuses rp)); [exfalso; apply Hn, Hst; reflexivity|]. rewrite Hid. reflexivity.
      * intros rp -> Hi Href. specialize (Hi r j Hcf). apply Hst in Hi. rewrite Hi, (refused_replacement_spec rp e (r_id r) t Href). reflexivity.
Qed.
Print Assumptions C76_unique_enqueue.

(** * Nothing else fails *)

(** The job a report or an edit is about. *)
Inductive about : mop -> Z -> Prop :=
| ab_complete id : about (OpComplete id) id
| ab_retryable id t e : about (OpRetryable id t e) id
| ab_discarded id e : about (OpDiscarded id e) id
| ab_cancelled id e : about (OpCancelled id e) id
| ab_snoozed id t : about (OpSnoozed id t) id
| ab_rerun id : about (OpRerun id) id
| ab_update j : about (OpUpdate j) (j_id j).
Definition no_int4 (z : Z) : Prop := z < - 2 ^ 31 \/ 2 ^ 31 - 1 < z.

(** The other reasons to fail: the job is not there, the numbers are used up, counting an attempt
    overflows, the cut-off is no date, an empty conjunction or disjunction is part of the query. *)
Inductive fails_otherwise (now : time) (t : tbl) (js : list job) : mop -> Prop :=
| fo_missing o id : about o id -> (forall j, In j js -> j_id j <> id) -> fails_otherwise now t js o
| fo_numbers e : eq_criteria e = None -> 2 ^ 31 <= t_next t -> fails_otherwise now t js (OpEnqueue e)
| fo_load ex j : In j js -> j_executor j = ex -> no_int4 (j_attempt j + 1) -> fails_otherwise now t js (OpLoad ex)
| fo_snoozed j at_ : In j js -> no_int4 (j_attempt j - 1) -> fails_otherwise now t js (OpSnoozed (j_id j) at_)
| fo_rerun j : In j js -> no_int4 (j_max_attempts j + 1) -> fails_otherwise now t js (OpRerun (j_id j))
| fo_prune ps : ~ cut_off_is_date now ps -> fails_otherwise now t js (OpPrune ps)
| fo_query q : part_of (QAnd []) q \/ part_of (QOr []) q -> fails_otherwise now t js (OpQuery q).

Lemma dirty_in l : forallb storable l = false -> exists s, In s l /\ ~ clean s.
Proof.
  induction l as [|s l IH]; [discriminate|]. cbn [forallb]. destruct (storable s) eqn:E; cbn [andb].
  - intro H. destruct (IH H) as [x [Hx Hc]]. exists x. split; [right; exact Hx|exact Hc].
  - intros _. exists s. split; [left; reflexivity|]. apply not_clean, E.
Qed.
Lemma refused_fields_conv d m ts t :
  json_storable d && json_storable m && forallb storable ts && time_ok t = false -> refused_fields d m ts t.
Proof.
  intro H. destruct (json_storable d) eqn:E1; [|apply rf_data, not_clean_json, E1].
  destruct (json_storable m) eqn:E2; [|apply rf_metadata, not_clean_json, E2].
  destruct (forallb storable ts) eqn:E3; [|destruct (dirty_in ts E3) as [s [Hs Hc]]; exact (rf_tag _ _ _ _ s Hs Hc)].
  apply rf_at, early_refused. exact H.
Qed.
Lemma refused_request_conv e : pg_request_ok e = false -> refused_request e.
Proof.
  unfold pg_request_ok, refused_request. intro H. destruct (storable (eq_executor e)) eqn:E; [|left; apply not_clean, E].
  right. apply refused_fields_conv.
  destruct (json_storable (eq_data e)), (json_storable (eq_metadata e)), (time_ok (eq_scheduled_at e)), (forallb storable (eq_tags e)); cbn in *; congruence.
Qed.
Lemma refused_error_conv e : pg_error_ok e = false -> refused_error e.
Proof.
  unfold pg_error_ok. intro H. destruct (storable (ee_message e)) eqn:E; [|apply re_message, not_clean, E].
  rewrite andb_true_r in H. destruct (ee_type e) as [| | |s] eqn:Et; try discriminate H.
  apply (re_type e s Et). apply not_clean. exact H.
Qed.

(** Any text the code generates for a query without empty parts is a condition. *)
Inductive chain : list token -> Prop :=
| ch_one ts c : operand ts c -> chain ts
| ch_more k ts c rest : k = TAnd \/ k = TOr -> operand ts c -> chain rest -> chain (ts ++ k :: rest).
Lemma chain_app k a b : k = TAnd \/ k = TOr -> chain a -> chain b -> chain (a ++ k :: b).
Proof.
  intros Hk Ha Hb. induction Ha as [ts c H|k' ts c rest Hk' H _ IH]; [exact (ch_more k ts c b Hk H Hb)|].
  rewrite <- app_assoc. exact (ch_more k' ts c _ Hk' H IH).
Qed.
Lemma chain_not ts : chain ts -> chain (TNot :: ts).
Proof.
  assert (Ho : forall ts c, operand ts c -> operand (TNot :: ts) (CondNot c)).
  { intros x c H rest Hr. cbn [app parse_not]. rewrite (H rest Hr). reflexivity. }
  intros [x c H|k x c rest Hk H Hc]; [exact (ch_one _ _ (Ho _ _ H))|].
  change (TNot :: x ++ k :: rest) with ((TNot :: x) ++ k :: rest). exact (ch_more k _ _ rest Hk (Ho _ _ H) Hc).
Qed.
Lemma chain_joined k l : k = TAnd \/ k = TOr -> l <> [] -> (forall x, In x l -> chain x) -> chain (joined k l).
Proof.
  intros Hk. induction l as [|x l IH]; [congruence|]. intros _ H. destruct l as [|y l]; [apply H; left; reflexivity|].
  rewrite joined_cons by discriminate. apply chain_app; [exact Hk|apply H; left; reflexivity|].
  apply IH; [discriminate|]. intros; apply H; right; assumption.
Qed.
Lemma chain_leaf q c : (forall rest, stops rest -> parse_not (handle_query q ++ rest) = Some (c, rest)) -> chain (handle_query q).
Proof. intro H. exact (ch_one _ c H). Qed.
Fixpoint query_chain (q : query) : ~ part_of (QAnd []) q -> ~ part_of (QOr []) q -> chain (handle_query q).
Proof.
  assert (Hlist : forall qs, (forall x, In x qs -> ~ part_of (QAnd []) x /\ ~ part_of (QOr []) x) ->
    forall x, In x (map handle_query qs) -> chain x).
  { intros qs. induction qs as [|q0 qs IH]; intros H x Hx; [destruct Hx|]. destruct Hx as [<-|Hx].
    - destruct (H q0 (or_introl eq_refl)) as [H1 H2]. exact (query_chain q0 H1 H2).
    - apply IH; [|exact Hx]. intros y Hy. apply H. right. exact Hy. }
  intros Ha Ho. destruct q as [inner|qs|qs|e|d|m|id|ids|s|ts|ts|t|t|t].
  - apply chain_not, query_chain; intro H; [apply Ha|apply Ho]; apply po_not, H.
  - cbn [handle_query]. apply chain_joined; [auto| |].
    + destruct qs; [exfalso; apply Ha; constructor|discriminate].
    + apply Hlist. intros x Hx. split; intro H; [apply Ha|apply Ho]; exact (po_and _ x qs Hx H).
  - cbn [handle_query]. apply chain_joined; [auto| |].
    + destruct qs; [exfalso; apply Ho; constructor|discriminate].
    + apply Hlist. intros x Hx. split; intro H; [apply Ha|apply Ho]; exact (po_or _ x qs Hx H).
  - eapply chain_leaf. intros rest H; destruct H; reflexivity.
  - eapply chain_leaf. intros rest H; destruct H; reflexivity.
  - eapply chain_leaf. intros rest H; destruct H; reflexivity.
  - eapply chain_leaf. intros rest H; destruct H; reflexivity.
  - eapply chain_leaf. intros rest H; destruct H; reflexivity.
  - eapply chain_leaf. intros rest H; destruct H; reflexivity.
  - eapply chain_leaf. intros rest H; destruct H; reflexivity.
  - eapply chain_leaf. intros rest H; destruct H; reflexivity.
  - eapply chain_leaf. intros rest H; destruct H; reflexivity.
  - eapply chain_leaf. intros rest H; destruct H; reflexivity.
  - eapply chain_leaf. intros rest H; destruct H; reflexivity.
Qed.
Lemma chain_branches ts : chain ts -> exists l ll, branches (l :: ll) /\ ts = joined TOr (map branch_text (l :: ll)).
Proof.
  induction 1 as [ts c H|k ts c rest Hk H _ [l [ll [Hb E]]]].
  - exists [(ts, c)], []. split; [|reflexivity]. constructor; [|constructor]. split; [discriminate|]. constructor; [exact H|constructor].
  - destruct Hk as [-> | ->].
    + exists ((ts, c) :: l), ll. inversion Hb as [|? ? [Hl1 Hl2] Hb']; subst. split.
      * constructor; [|exact Hb']. split; [discriminate|]. constructor; assumption.
      * assert (Et : branch_text ((ts, c) :: l) = ts ++ TAnd :: branch_text l).
        { unfold branch_text, texts. cbn [map fst]. apply joined_cons. destruct l; [congruence|discriminate]. }
        cbn [map]. rewrite Et. destruct ll as [|l' ll]; [reflexivity|]. cbn [map].
        rewrite (joined_cons TOr (branch_text l)) by discriminate. rewrite (joined_cons TOr (ts ++ TAnd :: branch_text l)) by discriminate.
        rewrite <- app_assoc. reflexivity.
    + exists [(ts, c)], (l :: ll). split.
      * constructor; [|exact Hb]. split; [discriminate|]. constructor; [exact H|constructor].
      * rewrite E. cbn [map]. rewrite (joined_cons TOr (branch_text [(ts, c)])) by discriminate. reflexivity.
Qed.
Lemma chain_parses ts : chain ts -> exists c, parse_where ts = Some c.
Proof.
  intro H. destruct (chain_branches ts H) as [l [ll [Hb E]]].
  destruct (parse_or_joined ll l (S (length ts)) Hb) as [c [Ep _]].
  { rewrite E. pose proof (joined_length TOr (map branch_text (l :: ll))) as Hj.
    assert (Hlen : (length (l :: ll) <= length (concat (map branch_text (l :: ll))))%nat).
    { clear -Hb. induction Hb as [|x lx [Hx1 Hx2] _ IH]; [apply le_n|]. cbn [map concat]. rewrite app_length.
      assert (length (branch_text x) <> O).
      { unfold branch_text. pose proof (joined_length TAnd (texts x)). pose proof (operands_length _ Hx2).
        destruct x; [congruence|]. cbn [length] in *. lia. }
      cbn [length]. lia. }
    cbn [length] in *. lia. }
  exists c. unfold parse_where. rewrite E in *. rewrite Ep. reflexivity.
Qed.
Fixpoint query_bounds (q : query) : bounds_ok (handle_query q) = false -> exists q', part_of q' q /\ refused_leaf q'.
Proof.
  assert (Hlist : forall k qs, k = TAnd \/ k = TOr -> bounds_ok (joined k (map handle_query qs)) = false ->
    exists x q', In x qs /\ part_of q' x /\ refused_leaf q').
  { intros k qs Hk. induction qs as [|q0 qs IH]; intro H; [discriminate H|].
    destruct (bounds_ok (handle_query q0)) eqn:E0.
    2:{ destruct (query_bounds q0 E0) as [q' [H1 H2]]. exists q0, q'. split; [left; reflexivity|]. split; assumption. }
    destruct qs as [|q1 qs]; [cbn [map joined] in H; congruence|].
    cbn [map] in H. rewrite joined_cons in H by discriminate. rewrite bounds_ok_app, E0 in H. cbn [andb] in H.
    destruct IH as [x [q' [Hx Hq]]]; [destruct Hk as [-> | ->]; exact H|]. exists x, q'. split; [right; exact Hx|exact Hq]. }
  intro H. destruct q as [inner|qs|qs|e|d|m|id|ids|s|ts|ts|t|t|t].
  - destruct (query_bounds inner H) as [q' [H1 H2]]. exists q'. split; [apply po_not, H1|exact H2].
  - destruct (Hlist TAnd qs (or_introl eq_refl) H) as [x [q' [Hx [H1 H2]]]]. exists q'. split; [exact (po_and _ x qs Hx H1)|exact H2].
  - destruct (Hlist TOr qs (or_intror eq_refl) H) as [x [q' [Hx [H1 H2]]]]. exists q'. split; [exact (po_or _ x qs Hx H1)|exact H2].
  - cbn [handle_query bounds_ok forallb bound_ok] in H. rewrite andb_true_r in H. exists (QExecutorEqual e). split; [constructor|]. apply rl_executor, not_clean, H.
  - cbn [handle_query bounds_ok forallb bound_ok] in H. rewrite andb_true_r in H. exists (QDataEquals d). split; [constructor|]. apply rl_data, not_clean_json, H.
  - cbn [handle_query bounds_ok forallb bound_ok] in H. rewrite andb_true_r in H. exists (QMetadataEquals m). split; [constructor|]. apply rl_metadata, not_clean_json, H.
  - discriminate H.
  - discriminate H.
  - discriminate H.
  - cbn [handle_query bounds_ok forallb bound_ok] in H. rewrite andb_true_r in H. destruct (dirty_in ts H) as [s [Hs Hc]]. exists (QTagsAllOf ts). split; [constructor|exact (rl_all s ts Hs Hc)].
  - cbn [handle_query bounds_ok forallb bound_ok] in H. rewrite andb_true_r in H. destruct (dirty_in ts H) as [s [Hs Hc]]. exists (QTagsOneOf ts). split; [constructor|exact (rl_one s ts Hs Hc)].
  - cbn [handle_query bounds_ok forallb bound_ok] in H. rewrite andb_true_r in H. exists (QScheduledAtBefore t). split; [constructor|]. apply rl_before, early_refused, H.
  - cbn [handle_query bounds_ok forallb bound_ok] in H. rewrite andb_true_r in H. exists (QScheduledAtAfter t). split; [constructor|]. apply rl_after, early_refused, H.
  - cbn [handle_query bounds_ok forallb bound_ok] in H. rewrite andb_true_r in H. exists (QScheduledAtEqual t). split; [constructor|]. apply rl_at, early_refused, H.
Qed.

Lemma int4_none z : int4 z = None -> no_int4 z.
Proof.
  unfold int4, in_i32, no_int4. destruct (Z.leb_spec (-2147483648) z), (Z.leb_spec z 2147483647); cbn; intro H1; try discriminate; lia.
Qed.
Lemma edit_failed ok id f t js : holds_jobs t js -> NoDup (map j_id js) -> ok = true ->
  (forall r' n, snd (pg_update_by_id ok id f t) = Err r' -> n = r' -> (forall j, In j js -> j_id j <> id) \/ exists r j, In j js /\ represents r j /\ j_id j = id /\ f r = None)
  /\ snd (pg_update_by_id ok id f t) <> Panic.
Proof.
  intros Ht Hn ->. unfold pg_update_by_id. cbn [negb]. pose proof (holds_jobs_ids t js Ht) as Hids. rewrite <- Hids in Hn.
  assert (Hin : forall r, In r (t_rows t) -> exists j, In j js /\ represents r j).
  { clear -Ht. unfold holds_jobs in Ht. induction Ht as [|r0 j0 l js' H0 _ IH]; intros r Hr; [destruct Hr|].
    destruct Hr as [->|Hr]; [exists j0; split; [left; reflexivity|exact H0]|]. destruct (IH r Hr) as [j [H1 H2]]. exists j. split; [right; exact H1|exact H2]. }
  pose proof (update_rows_spec id f (t_rows t) Hn) as Hu. destruct (update_rows id f (t_rows t)) as [[l n]|].
  - destruct Hu as [[-> [_ Hno]]|[-> _]]; cbn.
    + split; [|discriminate]. intros _ _ _ _. left. intros j Hj E.
      assert (Hm : In (j_id j) (map r_id (t_rows t))) by (rewrite Hids; apply in_map, Hj).
      apply in_map_iff in Hm. destruct Hm as [r [Er Hr]]. exact (Hno r Hr (eq_trans Er E)).
    + split; discriminate.
  - destruct Hu as [r [Hr [Hid Hf]]]. cbn. split; [|discriminate]. intros _ _ _ _. right. destruct (Hin r Hr) as [j [Hj Hrj]].
    exists r, j. split; [exact Hj|]. split; [exact Hrj|]. split; [|exact Hf]. rewrite <- (represents_id r j Hrj). exact Hid.
Qed.

Lemma held_filter f l js : Forall2 represents l js -> exists js', Forall2 represents (filter f l) js'.
Proof.
  induction 1 as [|r j l js H _ [js' IH]]; [exists []; constructor|]. cbn [filter].
  destruct (f r); [exists (j :: js'); constructor; assumption|exists js'; exact IH].
Qed.
Lemma sort_perm {A} (leb : A -> A -> bool) l : Permutation l (stable_sort leb l).
Proof.
  assert (Hi : forall x s, Permutation (x :: s) (insert_sorted leb x s)).
  { intros x s. induction s as [|y s IH]; [reflexivity|]. cbn [insert_sorted]. destruct (leb x y); [reflexivity|].
    rewrite perm_swap. constructor. exact IH. }
  induction l as [|x l IH]; [reflexivity|]. cbn [stable_sort fold_right]. rewrite <- Hi. constructor. exact IH.
Qed.
Fixpoint query_empty_dec (q : query) :
  (part_of (QAnd []) q \/ part_of (QOr []) q) \/ (~ part_of (QAnd []) q /\ ~ part_of (QOr []) q).
Proof.
  assert (Hlist : forall qs, (exists x, In x qs /\ (part_of (QAnd []) x \/ part_of (QOr []) x))
    \/ (forall x, In x qs -> ~ part_of (QAnd []) x /\ ~ part_of (QOr []) x)).
  { intro qs. induction qs as [|q0 qs IH]; [right; intros x []|].
    destruct (query_empty_dec q0) as [H|H]; [left; exists q0; split; [left; reflexivity|exact H]|].
    destruct IH as [[x [Hx H']]|H']; [left; exists x; split; [right; exact Hx|exact H']|].
    right. intros x [<-|Hx]; [exact H|exact (H' x Hx)]. }
  destruct q as [inner|qs|qs|e|d|m|id|ids|s|ts|ts|t|t|t];
    try (right; split; intro H; inversion H; fail).
  - destruct (query_empty_dec inner) as [[H|H]|[H1 H2]]; [left; left; apply po_not, H|left; right; apply po_not, H|].
    right. split; intro H; inversion H; subst; contradiction.
  - destruct qs as [|q0 qs]; [left; left; constructor|].
    destruct (Hlist (q0 :: qs)) as [[x [Hx [H|H]]]|H]; [left; left; exact (po_and _ x _ Hx H)|left; right; exact (po_and _ x _ Hx H)|].
    right. split; intro H'; inversion H' as [|? ?|? ? Hi Hp|? ? Hi Hp]; subst; destruct (H _ Hi); contradiction.
  - destruct qs as [|q0 qs]; [left; right; constructor|].
    destruct (Hlist (q0 :: qs)) as [[x [Hx [H|H]]]|H]; [left; left; exact (po_or _ x _ Hx H)|left; right; exact (po_or _ x _ Hx H)|].
    right. split; intro H'; inversion H' as [|? ?|? ? Hi Hp|? ? Hi Hp]; subst; destruct (H _ Hi); contradiction.
Qed.

(** In a table whose rows can be read, an operation other than a unique enqueue fails only if it is
    refused or for one of these reasons; in particular every text generated for a query without empty
    parts is a condition. *)
Theorem C76_nothing_else : forall ident now t js o,
  holds_jobs t js -> NoDup (map j_id js) -> (forall e, o = OpEnqueue e -> eq_criteria e = None) ->
  PgSpec.failed (snd (pg_step ident now t o)) -> refused now o \/ fails_otherwise now t js o.
Proof.
  intros ident now t js o Ht Hn Hu Hf.
  assert (Hedit : forall ok id f, about o id ->
    snd (pg_step ident now t o) = RUnit (snd (pg_update_by_id ok id f t)) -> (ok = false -> refused now o) ->
    (forall r j, In j js -> represents r j -> j_id j = id -> f r = None -> fails_otherwise now t js o) ->
    refused now o \/ fails_otherwise now t js o).
  { intros ok id f Hab Es Hr Hnone. destruct ok eqn:Eok; [|left; apply Hr; reflexivity].
    right. destruct (edit_failed true id f t js Ht Hn eq_refl) as [H1 H2]. rewrite Es in Hf.
    destruct (snd (pg_update_by_id true id f t)) as [u|e|]; [destruct Hf| |congruence].
    destruct (H1 e e eq_refl eq_refl) as [Hm|[r [j [Hj [Hrj [Hid Hx]]]]]]; [exact (fo_missing _ _ _ o id Hab Hm)|exact (Hnone r j Hj Hrj Hid Hx)]. }
  assert (Hstep : forall (x : tbl * result unit), snd (let (t', r) := x in (t', RUnit r)) = RUnit (snd x)) by (intros [? ?]; reflexivity).
  destruct o as [e|ex|id|id at_ e|id e|id e|id at_|ps|id|j|q|ex| |].
  - cbn [pg_step] in Hf. unfold pg_enqueue in Hf. rewrite (Hu e eq_refl) in Hf. unfold pg_insert in Hf.
    destruct (pg_request_ok e) eqn:E; cbn [negb] in Hf; [|left; apply rd_enqueue; [apply Hu; reflexivity|apply refused_request_conv, E]].
    destruct (Z.ltb_spec 2147483647 (t_next t)); [right; apply fo_numbers; [apply Hu; reflexivity|lia]|destruct Hf].
  - cbn [pg_step] in Hf. unfold pg_load in Hf. destruct (storable ex) eqn:E; cbn [negb] in Hf; [|left; apply rd_load, not_clean, E].
    destruct (stable_sort pg_leb (filter (pg_ready now ex) (t_rows t))) as [|r l] eqn:Es; [destruct Hf|]. right.
    assert (Hr : In r (filter (pg_ready now ex) (t_rows t))).
    { eapply Permutation_in; [symmetry; apply (sort_perm pg_leb)|]. rewrite Es. left. reflexivity. }
    apply filter_In in Hr. destruct Hr as [Hr Hready].
    assert (Hin : exists j, In j js /\ represents r j).
    { clear -Ht Hr. unfold holds_jobs in Ht. induction Ht as [|r0 j0 l0 js' H0 _ IH]; [destruct Hr|].
      destruct Hr as [->|Hr]; [exists j0; split; [left; reflexivity|exact H0]|]. destruct (IH Hr) as [j [H1 H2]]. exists j. split; [right; exact H1|exact H2]. }
    destruct Hin as [j [Hj Hrj]].
    assert (Hov : pg_take now r = None -> fails_otherwise now t js (OpLoad ex)).
    { unfold pg_take. destruct (int4 (r_attempt r + 1)) eqn:Ei; [discriminate|]. intros _. apply int4_none in Ei.
      apply (fo_load _ _ _ ex j Hj).
      - unfold pg_ready in Hready. apply andb_prop in Hready. destruct Hready as [_ He]. apply String.eqb_eq in He. rewrite <- He. symmetry. apply Hrj.
      - destruct Hrj as [_ [_ [_ [_ [_ [Ha _]]]]]]. rewrite <- Ha. exact Ei. }
    pose proof (holds_jobs_ids t js Ht) as Hids. rewrite <- Hids in Hn.
    pose proof (update_rows_spec (r_id r) (pg_take now) (t_rows t) Hn) as Hup.
    destruct (update_rows (r_id r) (pg_take now) (t_rows t)) as [[l' n]|].
    + destruct (pg_take now r) as [r'|] eqn:Et; [|exact (Hov eq_refl)]. exfalso.
      assert (Hx : exists j', job_of_row r' = Ok j').
      { unfold pg_take in Et. destruct (int4 (r_attempt r + 1)) as [a|]; [|discriminate]. injection Et as <-.
        unfold job_of_row, put_status, put_attempted_at, put_attempt. cbn [r_status r_errors].
        apply represents_iff in Hrj. unfold job_of_row in Hrj. destruct (status_of_label (r_status r)); [|discriminate].
        destruct (collect (map read_error (r_errors r))); [|discriminate]. eexists. reflexivity. }
      destruct Hx as [j' Ej]. cbn [snd] in Hf. rewrite Ej in Hf. exact Hf.
    + destruct Hup as [r0 [Hr0 [Hid0 Hf0]]].
      assert (r0 = r).
      { clear -Hn Hr Hr0 Hid0. induction (t_rows t) as [|a l IH]; [destruct Hr|]. cbn [map] in Hn. inversion Hn as [|? ? Ha Hn']; subst.
        destruct Hr as [->|Hr], Hr0 as [->|Hr0]; auto.
        - exfalso. apply Ha. rewrite <- Hid0. apply in_map, Hr0.
        - exfalso. apply Ha. rewrite Hid0. apply in_map, Hr. }
      subst r0. exact (Hov Hf0).
  - eapply (Hedit true); [constructor|cbn [pg_step]; apply Hstep|discriminate|]. intros r j _ _ _ H. discriminate H.
  - eapply (Hedit (pg_error_ok e && time_ok at_)); [constructor|cbn [pg_step]; apply Hstep| |intros r j _ _ _ H; discriminate H].
    intro H. apply rd_retryable. destruct (pg_error_ok e) eqn:E; [left; apply early_refused, H|right; apply refused_error_conv, E].
  - eapply (Hedit (pg_error_ok e)); [constructor|cbn [pg_step]; apply Hstep| |intros r j _ _ _ H; discriminate H].
    intro H. apply rd_discarded, refused_error_conv, H.
  - eapply (Hedit (pg_error_ok e)); [constructor|cbn [pg_step]; apply Hstep| |intros r j _ _ _ H; discriminate H].
    intro H. apply rd_cancelled, refused_error_conv, H.
  - eapply (Hedit (time_ok at_)); [constructor|cbn [pg_step]; apply Hstep| |].
    + intro H. apply rd_snoozed, early_refused, H.
    + intros r j Hj Hrj <- H. apply fo_snoozed; [exact Hj|]. destruct Hrj as [_ [_ [_ [_ [_ [Ha _]]]]]]. rewrite <- Ha.
      apply int4_none. destruct (int4 (r_attempt r - 1)); [discriminate|reflexivity].
  - cbn [pg_step] in Hf. unfold pg_prune in Hf. destruct (pg_doomed now ps (t_rows t)) as [[ids|]|] eqn:E.
    + left. destruct (pg_spec_ok (ps_executors ps)) eqn:Es; [destruct Hf|]. apply rd_prune.
      * intros d Hd. unfold pg_doomed in E. rewrite Hd in E. unfold cut_off.
        assert (Hi : forall c, in_dt c = true -> dt_min <= c <= dt_max).
        { unfold in_dt. intros c Hc. apply andb_prop in Hc. rewrite !Z.leb_le in Hc. exact Hc. }
        unfold dt_sub, dt_add in E. destruct (ps_status ps); cbn [in_past] in E;
          match type of E with context [in_dt ?c] => apply Hi; destruct (in_dt c) eqn:Ec; [reflexivity|discriminate E] end.
      * unfold pg_spec_ok, names in *. destruct (ps_executors ps); exact (dirty_in _ Es).
    + left. unfold pg_doomed in E. destruct (ps_by ps) as [d|n] eqn:Eb; [|discriminate E].
      assert (Hi : forall c, in_dt c = true -> dt_min <= c <= dt_max).
      { unfold in_dt. intros c Hc. apply andb_prop in Hc. rewrite !Z.leb_le in Hc. exact Hc. }
      assert (Hc : dt_min <= cut_off now ps d <= dt_max /\ time_ok (cut_off now ps d) = false).
      { unfold cut_off. unfold dt_sub, dt_add in E.
        destruct (ps_status ps); cbn [in_past] in E;
          match type of E with context [in_dt ?c] => destruct (in_dt c) eqn:Ec; [|discriminate E]; split; [apply Hi, Ec|];
            destruct (time_ok c); [discriminate E|reflexivity] end. }
      destruct Hc as [Hc1 Hc2]. apply (rd_prune_age now ps d); [|exact Eb|apply early_refused, Hc2].
      intros d' Ed. assert (d' = d) by congruence. subst d'. exact Hc1.
    + right. apply fo_prune. intro Hc. destruct (ps_by ps) as [d|n] eqn:Eb.
      * destruct (cut_off_doomed now ps d (t_rows t) Eb Hc) as [l El]. congruence.
      * unfold pg_doomed in E. rewrite Eb in E. discriminate E.
  - eapply (Hedit (time_ok now)); [constructor|cbn [pg_step]; apply Hstep| |].
    + intro H. apply rd_rerun, early_refused, H.
    + intros r j Hj Hrj <- H. apply fo_rerun; [exact Hj|]. destruct Hrj as [_ [_ [_ [_ [_ [_ [Ha _]]]]]]]. rewrite <- Ha.
      apply int4_none. destruct (int4 (r_max_attempts r + 1)); [discriminate|reflexivity].
  - eapply (Hedit (_ && _)); [constructor|cbn [pg_step]; apply Hstep| |intros r j' _ _ _ H; discriminate H].
    intro H. apply rd_update, refused_fields_conv, H.
  - cbn [pg_step snd] in Hf. unfold pg_query, select_rows in Hf. destruct (bounds_ok (handle_query q)) eqn:Eb.
    2:{ left. destruct (query_bounds q Eb) as [q' [H1 H2]]. exact (rd_query now q q' H1 H2). }
    right. destruct (parse_where (handle_query q)) as [c|] eqn:Ep.
    + exfalso. destruct (held_filter (eval c) (t_rows t) js Ht) as [js1 H1].
      destruct (represents_perm _ _ _ (sort_perm (fun a b => r_inserted_at b <=? r_inserted_at a) (filter (eval c) (t_rows t))) H1) as [l [Hl _]].
      rewrite (read_rows_represents _ _ Hl) in Hf. exact Hf.
    + apply fo_query.
      destruct (query_empty_dec q) as [He|[Ha Ho]]; [exact He|].
      destruct (chain_parses _ (query_chain q Ha Ho)) as [c Ec]. congruence.
  - destruct Hf.
  - destruct Hf.
  - destruct Hf.
Qed.
Print Assumptions C76_nothing_else.

(** * Examples *)

Definition zero_text : string := String Ascii.zero EmptyString.
Lemma zero_unclean : ~ clean zero_text.
Proof. intro H. exact (H O eq_refl). Qed.
Example C76_refused_example :
  refused 0 (OpLoad zero_text) /\ refused 0 (OpSnoozed 1 (-300000000000000 * ms))
  /\ refused 0 (OpRetryable 1 (5 * ms) (mk_exec_error (EOther zero_text) "late")) /\ refused 0 (OpQuery (QNot (QAnd [QIdEquals 1; QExecutorEqual zero_text])))
  /\ refused 0 (OpPrune (mk_prune_spec Complete (MaxLength 3) (Only [mail; zero_text])))
  /\ refused 0 (OpPrune (mk_prune_spec Complete (MaxAge (300000000000000 * ms)) (Except []))).
Proof.
  pose proof zero_unclean as Hz.
  assert (He : early (-300000000000000 * ms)) by (vm_compute; discriminate).
  split; [constructor; exact Hz|]. split; [constructor; exact He|]. split; [constructor; right; eapply re_type; [reflexivity|exact Hz]|].
  split; [eapply rd_query; [apply po_not; eapply po_and; [right; left; reflexivity|apply po_self]|constructor; exact Hz]|].
  split; [apply rd_prune; [intros d Hd; discriminate Hd|exists zero_text; split; [right; left; reflexivity|exact Hz]]|].
  eapply rd_prune_age; [|reflexivity|vm_compute; discriminate].
  intros d Hd. injection Hd as <-. split; vm_compute; discriminate.
Qed.
Example C76_prune_panics_example : ~ cut_off_is_date 0 (mk_prune_spec Complete (MaxAge delta_max) (Except [])).
Proof. intro H. destruct (H delta_max eq_refl) as [H1 _]. vm_compute in H1. apply H1. reflexivity. Qed.

(** A unique request for [mail] that conflicts with a sample row: its data are refused but ignored, or
    it replaces nothing. *)
Definition any_status : list status := [Scheduled; Retryable; Executing; Complete; Cancelled; Discarded].
Definition ask (d : json) (c : resolution) : enqueuable :=
  mk_enqueuable mail d JNull 3 (5 * ms) [] 0 (Some (mk_criteria None true None any_status c)).
Example C76_unique_example :
  let e := ask (JStr zero_text) DoNothing in
  let e' := ask JNull (Replace (mk_replace false false false false false any_status)) in
  holds_jobs t_sample js_sample /\ (exists r j, In r (t_rows t_sample) /\ represents r j /\ conflicts_pg e r j)
  /\ (exists r j, In r (t_rows t_sample) /\ represents r j /\ conflicts_pg e' r j)
  /\ kept_window e /\ kept_window e' /\ clean mail
  /\ snd (pg_step fx_identifier 0 t_sample (OpEnqueue e)) = RId (Ok 1)
  /\ snd (pg_step fx_identifier 0 t_sample (OpEnqueue e')) = RId (Err BadState).
Proof.
  cbv zeta. split; [exact sample_holds|].
  assert (Hr : exists r j, In r (t_rows t_sample) /\ represents r j /\ j_executor j = mail).
  { pose proof sample_holds as H. unfold holds_jobs in H. destruct (t_rows t_sample) as [|r l] eqn:E; [vm_compute in E; discriminate|].
    assert (G : forall l', Forall2 represents (r :: l) l' -> hd_error l' = hd_error js_sample -> exists j, represents r j /\ j_executor j = mail).
    { intros l' F Eh. destruct l' as [|j js']; [inversion F|]. exists j. split; [inversion F; assumption|].
      cbn [hd_error] in Eh. vm_compute in Eh. injection Eh as ->. reflexivity. }
    destruct (G _ H eq_refl) as [j [Hj Hm]]. exists r, j. split; [left; reflexivity|]. split; assumption. }
  destruct Hr as [r [j [H1 [H2 H3]]]].
  assert (Hst : forall s, In s any_status) by (intros []; cbn; auto 7).
  split; [|split; [|split; [|split; [|split; [|split]]]]].
  - exists r, j. split; [exact H1|]. split; [exact H2|]. eexists. split; [reflexivity|]. split; [discriminate|]. split; [intros _; symmetry; exact H3|]. split; [apply Hst|discriminate].
  - exists r, j. split; [exact H1|]. split; [exact H2|]. eexists. split; [reflexivity|]. split; [discriminate|]. split; [intros _; symmetry; exact H3|]. split; [apply Hst|discriminate].
  - intros uq d E Hd. injection E as <-. discriminate.
  - intros uq d E Hd. injection E as <-. discriminate.
  - apply clean_by_storable. reflexivity.
  - vm_compute. reflexivity.
  - vm_compute. reflexivity.
Qed.
Example C76_nothing_else_example :
  holds_jobs t_sample js_sample /\ NoDup (map j_id js_sample)
  /\ PgSpec.failed (snd (pg_step fx_identifier 0 t_sample (OpComplete 9)))
  /\ PgSpec.failed (snd (pg_step fx_identifier 0 t_sample (OpQuery (QNot (QAnd [])))))
  /\ ~ PgSpec.failed (snd (pg_step fx_identifier 0 t_sample (OpSubscribe zero_text)))
  /\ ~ PgSpec.failed (snd (pg_step fx_identifier 0 t_sample (OpQuery (QNot (QOr [QAnd [QIdIn []; QNot (QNot (QIdEquals 1))]; QIdEquals 2]))))).
Proof.
  split; [exact sample_holds|]. split.
  { replace (map j_id js_sample) with [1; 2; 3] by (vm_compute; reflexivity). repeat constructor; cbn; intuition discriminate. }
  split; [vm_compute; exact I|]. split; [vm_compute; exact I|]. split; vm_compute; intro H; exact H.
Qed.
