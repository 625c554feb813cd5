(** Properties of the typed API: builders (C46), uniqueness criteria (C61), payloads (C47, C62),
    typed and stored jobs (C48), the global backend (C49) and enqueue assertions (C50). *)
From Verif Require Import Base Chrono Types TypesProofs Query Memory MemSpec QueryProofs MemProofs
  MemHist MemHist2 MemThms MemInv Codec Builder GlobalBackend Testing WhereSpec WhereProofs ApiSpec
  ApiProofs PropsMem Samples.

(** Text data, integer metadata; [unit] metadata, which serde_json writes as null. *)
Definition text_codec : codec string Z :=
  mk_codec (fun s => Some (JStr s)) (fun v => match v with JStr s => Some s | _ => None end)
           (fun n => Some (JNum n)) (fun v => match v with JNum n => Some n | _ => None end).
Definition unit_codec : codec string unit :=
  mk_codec (fun s => Some (JStr s)) (fun v => match v with JStr s => Some s | _ => None end)
           (fun _ => Some JNull) (fun v => match v with JNull => Some tt | _ => None end).
Lemma text_round_trips :
  data_round_trips text_codec /\ metadata_round_trips text_codec /\ metadata_not_null text_codec.
Proof.
  split; [|split]; intro x; [intros v H; injection H as <-; reflexivity.. | discriminate].
Qed.
Lemma unit_round_trips : data_round_trips unit_codec /\ metadata_round_trips unit_codec.
Proof.
  split; intros x v H; injection H as <-; [|destruct x]; reflexivity.
Qed.
Definition mailer : exec_consts := exec_defaults mail.

(** * C46 Builder means what it says *)

(** The request carries, for every field, the value of the last call for that field or the
    default; [describes] lists the fields. *)
Theorem C46_request : forall D M (c : codec D M) ex now cs b e,
  apply_calls (builder_default now) cs = Some b -> request c ex b = Some e ->
  describes c ex now cs e.
Proof. intros D M c ex now cs b e. apply describes_request. Qed.
Print Assumptions C46_request.

(** Building only fails on a relative schedule outside chrono's range... *)
Theorem C46_builds : forall D M now (cs : list (bcall D M)),
  apply_calls (builder_default now) cs = None
  <-> exists t d, In (CScheduleIn t d) cs /\ ~ (dt_min <= t + d <= dt_max).
Proof.
  intros D M now cs. assert (Hg : forall b : builder D M,
    apply_calls b cs = None <-> exists t d, In (CScheduleIn t d) cs /\ ~ (dt_min <= t + d <= dt_max)).
  { induction cs as [|call cs IH]; intro b; cbn [apply_calls].
    - split; [discriminate | intros [t [d [[] _]]]].
    - assert (Hc : forall b', apply_call b call = Some b' ->
        (apply_calls b' cs = None <-> exists t d, In (CScheduleIn t d) (call :: cs) /\ ~ (dt_min <= t + d <= dt_max))).
      { intros b' Hb'. rewrite IH. split; intros [t [d [H1 H2]]]; exists t, d; (split; [|exact H2]).
        - right. exact H1.
        - destruct H1 as [H1|H1]; [|exact H1]. exfalso. subst call. cbn in Hb'.
          unfold schedule_in, dt_add, in_dt in Hb'.
          destruct ((dt_min <=? t + d) && (t + d <=? dt_max)) eqn:E; [lia | discriminate]. }
      destruct (apply_call b call) as [b'|] eqn:E; [apply Hc; reflexivity|].
      split; [intros _ | reflexivity].
      destruct call as [d|m|n|t|t d|tag|tags|u|n]; cbn in E; try discriminate.
      exists t, d. split; [left; reflexivity|]. unfold schedule_in, dt_add, in_dt in E.
      destruct ((dt_min <=? t + d) && (t + d <=? dt_max)) eqn:E1; [discriminate | lia]. }
  apply Hg.
Qed.
Print Assumptions C46_builds.

(** ... and a request is refused exactly when its data or metadata cannot be serialized. *)
Theorem C46_refused : forall D M (c : codec D M) ex now cs b,
  apply_calls (builder_default now) cs = Some b ->
  (request c ex b = None <->
   (exists d, last_set sets_data cs None (Some d) /\ enc_data c d = None)
   \/ (exists m, last_set sets_metadata cs None (Some m) /\ enc_meta c m = None)).
Proof.
  intros D M c ex now cs b Hb. destruct (built_all now cs b Hb) as [H1 H2 _ _ _ _ _].
  unfold request, enc_opt. split.
  - intro H. destruct (b_data b) as [d|] eqn:Ed.
    + destruct (enc_data c d) eqn:E1; [|left; eauto].
      destruct (b_metadata b) as [m|] eqn:Em; [|discriminate].
      destruct (enc_meta c m) eqn:E2; [discriminate | right; eauto].
    + destruct (b_metadata b) as [m|] eqn:Em; [|discriminate].
      destruct (enc_meta c m) eqn:E2; [discriminate | right; eauto].
  - intros [[d [H3 H4]]|[m [H3 H4]]].
    + rewrite (last_set_unique _ _ _ _ _ H1 H3), H4. reflexivity.
    + rewrite (last_set_unique _ _ _ _ _ H2 H3), H4. destruct (match b_data b with None => _ | Some x => _ end); reflexivity.
Qed.
Print Assumptions C46_refused.

(** End to end: what is stored is the described request. *)
Theorem C46_stored : forall D M (c : codec D M) ex now cs b e p h m now',
  reached p h m -> enqueues h < 4294967296 -> m_poisoned m = false ->
  apply_calls (builder_default now) cs = Some b -> request c ex b = Some e -> eq_criteria e = None ->
  exists m' id, enqueue_to c ex b (mem_enqueue now') m = (m', ROk id)
    /\ describes c ex now cs e /\ jobs_of m' = jobs_of m ++ [new_job now' id e].
Proof.
  intros D M c ex now cs b e p h m now' Hr Hlt Hp Hb Hq Hc.
  destruct (C01_enqueue_succeeds p now' m e Hp Hc) as [m' [id [Hs _]]].
  destruct (enqueue_stores_lemma p h m now' e m' id Hr Hlt Hc Hs) as [Hj _].
  exists m', id. unfold enqueue_to. rewrite Hq. cbn [mem_step] in Hs.
  destruct (mem_enqueue now' m e) as [m1 r]. injection Hs as -> ->. split; [reflexivity|].
  split; [eapply describes_request; eassumption | exact Hj].
Qed.
Print Assumptions C46_stored.

(** A backend that refuses the request gets the caller an error and the caller's state is the
    backend's. *)
Theorem C46_error_passed_on : forall D M (c : codec D M) ex b S (f : S -> enqueuable -> S * result Z) s s' e err,
  request c ex b = Some e -> f s e = (s', Err err) ->
  enqueue_to c ex b f s = (s', RErr (BackendError err)).
Proof. intros D M c ex b S f s s' e err H1 H2. unfold enqueue_to. rewrite H1, H2. reflexivity. Qed.
Print Assumptions C46_error_passed_on.

Definition sample_calls : list (bcall string Z) :=
  [ CAddTag "x"; CMaxAttempts 2; CData "first"; CWithTags ["a"; "b"]; CScheduleIn 100 50;
    CAddTag "c"; CPriority 3; CData "second"; CMetadata 7; CMaxAttempts 9 ]%string.
Example C46_example :
  exists b e, apply_calls (builder_default 10) sample_calls = Some b
    /\ request text_codec mailer b = Some e /\ eq_criteria e = None
    /\ e = {| eq_executor := mail; eq_data := JStr "second"; eq_metadata := JNum 7;
              eq_max_attempts := 9; eq_scheduled_at := 150; eq_tags := ["a"; "b"; "c"]%string;
              eq_priority := 3; eq_criteria := None |}
    /\ reached Debug h_sample m_sample.
Proof.
  do 2 eexists. split; [vm_compute; reflexivity|]. split; [vm_compute; reflexivity|].
  split; [reflexivity|]. split; [reflexivity|]. split; [vm_compute; reflexivity | vm_compute; discriminate].
Qed.
(** Nothing set: the documented defaults. *)
Example C46_example_defaults :
  exists b, apply_calls (D := string) (M := Z) (builder_default 10) [] = Some b
    /\ request text_codec mailer b
       = Some {| eq_executor := mail; eq_data := JNull; eq_metadata := JNull; eq_max_attempts := 5;
                 eq_scheduled_at := 10; eq_tags := []; eq_priority := 0; eq_criteria := None |}.
Proof. eexists. split; vm_compute; reflexivity. Qed.

(** * C61 Uniqueness criteria expressions mean what they say *)

Lemma as_i64_reading h : signed_reading (Some h) (Some (as_i64 h)).
Proof.
  unfold as_i64. cbn. change (2 ^ 63) with 9223372036854775808. change (2 ^ 64) with 18446744073709551616.
  pose proof (Z.mod_pos_bound (h + 9223372036854775808) 18446744073709551616 ltac:(lia)) as Hb.
  pose proof (Z.div_mod (h + 9223372036854775808) 18446744073709551616 ltac:(lia)) as Hd.
  split; [lia|]. exists ((h + 9223372036854775808) / 18446744073709551616). lia.
Qed.

(** Every part of the criteria is what the last method that mentions it said; defaults: no key, any
    executor, any time, scheduled jobs only, do nothing. *)
Theorem C61_criteria : forall x,
  let u := eval_criteria x in
  let calls := rev (criteria_chain x) in
  (exists h, last_set says_key calls None h /\ signed_reading h (uc_key u))
  /\ last_set says_executor calls false (uc_executor u)
  /\ last_set says_within calls None (uc_duration u)
  /\ last_set says_statuses calls [Scheduled] (uc_statuses u)
  /\ last_set says_resolution calls DoNothing (uc_on_conflict u).
Proof.
  cbn zeta. induction x as [|d|l|h|x IH|x IH d|x IH l|x IH h|x IH r|x IH];
    [..|destruct IH as [[k [I1 I1']] [I2 [I3 [I4 I5]]]]
       |destruct IH as [[k [I1 I1']] [I2 [I3 [I4 I5]]]]
       |destruct IH as [[k [I1 I1']] [I2 [I3 [I4 I5]]]]
       |destruct IH as [[k [I1 I1']] [I2 [I3 [I4 I5]]]]
       |destruct IH as [[k [I1 I1']] [I2 [I3 [I4 I5]]]]
       |destruct IH as [[k [I1 I1']] [I2 [I3 [I4 I5]]]]].
  all: cbn [criteria_chain rev eval_criteria by_executor within by_statuses by_key and_executor and_within
            and_statuses and_key on_conflict on_conflict_do_nothing uc_key uc_executor uc_duration
            uc_statuses uc_on_conflict].
  all: split; [|split; [|split; [|split]]];
    try (apply last_set_snoc_some; reflexivity);
    try (apply last_set_snoc_none; [reflexivity | assumption]);
    try (apply last_set_snoc_none; [reflexivity | apply last_set_nil]);
    try (exists k; split; [apply last_set_snoc_none; [reflexivity | assumption] | assumption]);
    try (exists None; split; [apply last_set_snoc_none; [reflexivity | apply last_set_nil] | exact I]);
    try (exists (Some h); split; [apply last_set_snoc_some; reflexivity | apply as_i64_reading]).
Qed.
Print Assumptions C61_criteria.

(** A [Replace] value replaces exactly the fields named in the expression, for the statuses given
    last (scheduled jobs by default). *)
Theorem C61_replace : forall x,
  let r := eval_replace x in
  (rp_scheduled_at r = true <-> names FScheduledAt x)
  /\ (rp_data r = true <-> names FData x)
  /\ (rp_metadata r = true <-> names FMetadata x)
  /\ (rp_priority r = true <-> names FPriority x)
  /\ (rp_max_attempts r = true <-> names FMaxAttempts x)
  /\ last_set says_statuses_r (rev (replace_chain x)) [Scheduled] (rp_for_statuses r).
Proof.
  cbn zeta. induction x as [| | | | |x IH|x IH|x IH|x IH|x IH|x IH l].
  6-11: destruct IH as [I1 [I2 [I3 [I4 [I5 I6]]]]].
  all: split; [|split; [|split; [|split; [|split]]]];
    try (cbn [eval_replace replace_chain rev];
         first [ apply last_set_snoc_some; reflexivity
               | apply last_set_snoc_none; [reflexivity | first [apply last_set_nil | assumption]] ]);
    cbn; split; intro H; try discriminate; try reflexivity; try (constructor; tauto);
    try (inversion H; subst; tauto).
Qed.
Print Assumptions C61_replace.

(** A replacement for [JobStatus::ALL] applies to a job of any status; each status is listed once. *)
Theorem C61_all_statuses : forall x s,
  In s (rp_for_statuses (eval_replace (XForStatuses x status_all)))
  /\ exists! n, nth_error status_all n = Some s.
Proof.
  intros x s. split; [destruct s; cbn; auto 7|].
  exists (match s with Complete => 0 | Executing => 1 | Scheduled => 2 | Retryable => 3 | Cancelled => 4 | Discarded => 5 end)%nat.
  split; [destruct s; reflexivity|]. intros n H.
  do 6 (destruct n as [|n]; [destruct s; cbn in H; congruence|]). destruct n; discriminate H.
Qed.
Print Assumptions C61_all_statuses.

Example C61_example :
  eval_criteria (XOnConflict (XAndStatuses (XAndKey (XWithin 60) 18446744073709551615) [Executing; Scheduled])
                   (eval_replace (XForStatuses (XAndMetadata XPriority) status_all)))
  = {| uc_key := Some (-1); uc_executor := false; uc_duration := Some 60;
       uc_statuses := [Executing; Scheduled];
       uc_on_conflict := Replace {| rp_scheduled_at := false; rp_data := false; rp_metadata := true;
                                    rp_priority := true; rp_max_attempts := false;
                                    rp_for_statuses := status_all |} |}
  /\ status_all = [Complete; Executing; Scheduled; Retryable; Cancelled; Discarded].
Proof. split; reflexivity. Qed.

(** * C62 Nothing but an update or a replacing enqueue changes what a job is for *)

Theorem C62_payload_kept : forall p h1 h2 m j j',
  reached p h1 m -> enqueues h1 + enqueues h2 <= 4294967296 -> In j (jobs_of m) ->
  (forall t o, In (t, o) h2 -> ~ replacing_enqueue o /\ (forall x, o = OpUpdate x -> j_id x <> j_id j)) ->
  In j' (jobs_of (mem_run p m h2)) -> j_id j' = j_id j ->
  j_data j' = j_data j /\ j_metadata j' = j_metadata j /\ j_executor j' = j_executor j
  /\ j_priority j' = j_priority j /\ j_tags j' = j_tags j /\ j_inserted_at j' = j_inserted_at j.
Proof. exact history_payload. Qed.
Print Assumptions C62_payload_kept.

Example C62_example :
  reached Debug h_sample m_sample
  /\ (forall t o, In (t, o) [(20, OpLoad mail); (21, OpRetryable 1 50 boom); (30, OpRerun 1);
                             (31, OpEnqueue (ureq mail 0 0 by_executor))] ->
        ~ replacing_enqueue o /\ (forall x, o = OpUpdate x -> j_id x <> 1)).
Proof.
  split; [split; [vm_compute; reflexivity | vm_compute; discriminate]|].
  intros t o [H|[H|[H|[H|[]]]]]; injection H as <- <-; (split; [|discriminate]); try (solve [intros []]).
  intros [uq [r [H1 H2]]]. injection H1 as <-. discriminate.
Qed.

(** * C47 Payload round trip *)

(** Full property: the data and metadata a job is executed with are those it was enqueued with, for
    types whose serialization round-trips.  Proved for metadata types no value of which is
    serialized as null; the exception is refuted below.  The job may be run, fail, be retried,
    snoozed, rerun any number of times in between. *)
Theorem C47_round_trip_partial : forall D M (c : codec D M) ex now cs b p h1 m0 now0 m1 id h2 now2 m2 j,
  data_round_trips c -> metadata_round_trips c -> metadata_not_null c ->
  reached p h1 m0 -> enqueues h1 + enqueues h2 < 4294967296 ->
  apply_calls (builder_default now) cs = Some b -> b_criteria b = None -> ex_criteria ex = None ->
  enqueue_to c ex b (mem_enqueue now0) m0 = (m1, ROk id) ->
  (forall t o, In (t, o) h2 -> ~ replacing_enqueue o /\ (forall x, o = OpUpdate x -> j_id x <> id)) ->
  mem_step p now2 (mem_run p m1 h2) (OpLoad (ex_name ex)) = (m2, RJob (Ok (Some j))) -> j_id j = id ->
  forall d, last_set sets_data cs None (Some d) ->
  forall md, last_set sets_metadata cs None md ->
  forall t, typed_of_stored c j = ROk t -> tj_data t = d /\ tj_metadata t = md.
Proof.
  intros D M c ex now cs b p h1 m0 now0 m1 id h2 now2 m2 j Hd Hm Hn Hr Hlt Hb Hbc Hec Henq Hall Hload Hid
    d Hld md Hlm t Ht.
  destruct (built_all now cs b Hb) as [B1 B2 _ _ _ _ _].
  pose proof (last_set_unique _ _ _ _ _ B1 Hld) as Hbd. pose proof (last_set_unique _ _ _ _ _ B2 Hlm) as Hbm.
  unfold enqueue_to in Henq. destruct (request c ex b) as [e|] eqn:Hq; [|discriminate].
  assert (He : eq_criteria e = None /\ stored_as (enc_data c) (Some d) (eq_data e)
               /\ stored_as (enc_meta c) md (eq_metadata e)).
  { unfold request, enc_opt in Hq. rewrite Hbd, Hbm, Hbc, Hec in Hq.
    destruct (enc_data c d) as [dv|] eqn:E1; [|discriminate].
    destruct md as [mv|]; cbn in Hq.
    - destruct (enc_meta c mv) as [mj|] eqn:E2; [|discriminate]. injection Hq as <-. cbn. auto.
    - injection Hq as <-. cbn. auto. }
  destruct He as [Hc [Hed Hem]].
  destruct (mem_enqueue now0 m0 e) as [m1' r] eqn:Em. injection Henq as <- Hrr.
  destruct r as [i|er|]; try discriminate. injection Hrr as ->.
  assert (Hs : mem_step p now0 m0 (OpEnqueue e) = (m1', RId (Ok id))) by (cbn; rewrite Em; reflexivity).
  unfold enqueues in Hlt.
  destruct (enqueue_stores_lemma p h1 m0 now0 e m1' id Hr) as [Hst _]; auto; [unfold enqueues; lia|].
  assert (Hr1 : reached p (h1 ++ [(now0, OpEnqueue e)]) m1').
  { destruct Hr as [-> Hr2]. split; [rewrite mem_run_app; cbn [mem_run]; rewrite Hs; reflexivity|].
    unfold enqueues in *. rewrite filter_app, app_length. cbn. lia. }
  assert (Hp : same_payload (new_job now0 id e) j).
  { assert (Hrun : mem_run p m1' (h2 ++ [(now2, OpLoad (ex_name ex))]) = m2).
    { rewrite mem_run_app. cbn [mem_run]. rewrite Hload. reflexivity. }
    refine (history_payload p (h1 ++ [(now0, OpEnqueue e)]) (h2 ++ [(now2, OpLoad (ex_name ex))]) m1'
      (new_job now0 id e) j Hr1 _ _ _ _ _).
    - unfold enqueues. rewrite !filter_app, !app_length. cbn. lia.
    - rewrite Hst. apply in_or_app. right. left. reflexivity.
    - intros t' o Ho. apply in_app_or in Ho. destruct Ho as [Ho|[Ho|[]]].
      + apply (Hall t' o Ho).
      + injection Ho as <- <-. split; [intros [] | discriminate].
    - rewrite Hrun. eapply load_in_store; [|exact Hload].
      destruct (reached_id_inv _ _ _ Hr1) as [n [Hn1 Hi]].
      destruct (id_inv_run p h2 m1' n Hi) as [n2 [_ Hi2]]; [|exact (ii_nodup _ _ Hi2)].
      rewrite weights_enqueues. unfold enqueues in *. rewrite filter_app, app_length in Hn1. cbn in Hn1. lia.
    - cbn. exact Hid. }
  destruct Hp as [Hp1 [Hp2 _]]. cbn in Hp1, Hp2, Hed.
  unfold typed_of_stored in Ht. rewrite Hp1, (Hd d _ Hed), Hp2 in Ht.
  assert (Hdm : dec_opt (dec_meta c) (eq_metadata e) = Some md).
  { destruct md as [mv|]; cbn in Hem; [|rewrite Hem; reflexivity].
    unfold dec_opt. rewrite (Hm mv _ Hem). destruct (eq_metadata e); try reflexivity.
    exfalso. exact (Hn mv Hem). }
  rewrite Hdm in Ht. destruct (try_into_u16 _); [|discriminate]. destruct (try_into_u16 _); [|discriminate].
  destruct (try_into_u16 _); [|discriminate]. injection Ht as <-. auto.
Qed.
Print Assumptions C47_round_trip_partial.

(** Metadata of a type serialized as null (such as [()]) is lost: enqueued with metadata, executed
    without. *)
Theorem C47_round_trip_refuted :
  data_round_trips unit_codec /\ metadata_round_trips unit_codec /\
  exists cs b m1 m2 j t,
    apply_calls (builder_default 10) cs = Some b
    /\ enqueue_to unit_codec mailer b (mem_enqueue 10) mem_init = (m1, ROk 0)
    /\ mem_step Debug 11 m1 (OpLoad mail) = (m2, RJob (Ok (Some j))) /\ j_id j = 0
    /\ typed_of_stored unit_codec j = ROk t
    /\ last_set sets_metadata cs None (Some tt) /\ tj_metadata t = None.
Proof.
  split; [apply unit_round_trips|]. split; [apply unit_round_trips|].
  exists [CData "x"%string; CMetadata tt].
  do 5 eexists. do 3 (split; [vm_compute; reflexivity|]). split; [reflexivity|].
  split; [vm_compute; reflexivity|]. split; [|reflexivity].
  left. exists [CData "x"%string], (CMetadata tt), []. repeat split; auto. intros x [].
Qed.
Print Assumptions C47_round_trip_refuted.

(** A run, failed and retried job, executed with its payload. *)
Example C47_example :
  exists b m1 m2 j t,
    apply_calls (builder_default 10) [CData "x"%string; CMetadata 7] = Some b
    /\ b_criteria b = None
    /\ enqueue_to text_codec mailer b (mem_enqueue 10) mem_init = (m1, ROk 0)
    /\ mem_step Debug 20 (mem_run Debug m1 [(11, OpLoad mail); (12, OpRetryable 0 13 boom)]) (OpLoad mail)
       = (m2, RJob (Ok (Some j)))
    /\ j_id j = 0
    /\ typed_of_stored text_codec j = ROk t /\ tj_data t = "x"%string /\ tj_metadata t = Some 7
    /\ tj_attempt t = 2.
Proof.
  do 5 eexists. split; [vm_compute; reflexivity|]. split; [reflexivity|].
  do 2 (split; [vm_compute; reflexivity|]). split; [reflexivity|]. split; [vm_compute; reflexivity|]. auto.
Qed.

(** * C48 Typed and stored jobs *)

(** Reading a stored job gives a job with the same contents, and writing that back gives the stored
    job again, whenever its counters fit the typed job. *)
Theorem C48_conversion_inverse_partial : forall D M (c : codec D M) j,
  data_round_trips c -> metadata_round_trips c -> well_typed c j -> counters_u16 j ->
  exists t, typed_of_stored c j = ROk t /\ reads_as c j t /\ stored_of_typed c t = ROk j.
Proof.
  intros D M c j Hd Hm Hw Hu. destruct (typed_ok c j Hd Hm Hw Hu) as [t [H1 H2]].
  exists t. split; [exact H1|]. split; [exact H2 | apply stored_again; exact H2].
Qed.
Print Assumptions C48_conversion_inverse_partial.

(** Writing an unchanged job back changes nothing in the store. *)
Theorem C48_update_after_query : forall D M (c : codec D M) p h m j t,
  data_round_trips c -> metadata_round_trips c -> reached p h m -> m_poisoned m = false ->
  In j (jobs_of m) -> well_typed c j -> typed_of_stored c j = ROk t ->
  exists m', update_job_on c t mem_update m = (m', ROk tt) /\ jobs_of m' = jobs_of m.
Proof.
  intros D M c p h m j t Hd Hm Hr Hp Hj Hw Ht.
  destruct (typed_reads c j t Hd Hm Hw Ht) as [Hra _].
  unfold update_job_on. rewrite (stored_again c j t Hra).
  unfold mem_update, with_job. rewrite Hp.
  apply in_map_iff in Hj. destruct Hj as [k [Hkj Hk]].
  destruct (split_first (fun k0 => j_id (kj_job k0) =? j_id j) (m_jobs m)) as [[[pre k'] post]|] eqn:E.
  - apply split_first_some in E. destruct E as [E [Hid _]].
    assert (k' = k) as ->.
    { apply (nodup_map_eq (fun k => j_id (kj_job k)) (m_jobs m)); auto.
      - exact (reached_kids _ _ _ Hr).
      - rewrite E. apply in_mid. auto.
      - rewrite Hkj. lia. }
    eexists. split; [reflexivity|].
    assert (Hn : forall ex t0 m0, jobs_of (notify_subscribers ex t0 m0) = jobs_of m0).
    { intros. unfold notify_subscribers. destruct (m_paused m0); reflexivity. }
    rewrite Hn. unfold jobs_of. cbn. rewrite E, !map_app. cbn. rewrite Hkj. reflexivity.
  - exfalso. rewrite split_first_none in E. pose proof (E k Hk) as H. cbn beta in H. rewrite Hkj in H. lia.
Qed.
Print Assumptions C48_update_after_query.

(** An executor's query returns exactly its jobs that satisfy the query, in typed form. *)
Theorem C48_query_exact_partial : forall D M (c : codec D M) name w m,
  data_round_trips c -> metadata_round_trips c -> m_poisoned m = false ->
  wencodable (enc_data c) (enc_meta c) w ->
  (forall j, In j (jobs_of m) -> j_executor j = name -> well_typed c j /\ counters_u16 j) ->
  exists l ts, query_jobs_on c name w (fun q => mem_query q m) = ROk ts
    /\ exactly_removed (fun j => ~ (j_executor j = name /\ wsat (enc_data c) (enc_meta c) w j)) (jobs_of m) l
    /\ Forall2 (reads_as c) l ts.
Proof.
  intros D M c name w m Hd Hm Hp Hw Hall. unfold query_jobs_on.
  destruct (query_of_where (enc_data c) (enc_meta c) w) as [q|] eqn:Hq;
    [|exfalso; apply C23_translation_defined in Hw; congruence].
  destruct (C24_executor_query_memory Debug 0 m D M (enc_data c) (enc_meta c) w q name Hp Hq) as [l [H1 H2]].
  cbn [mem_step] in H1. injection H1 as ->. cbn [lift_backend].
  destruct (typed_all_ok c l Hd Hm) as [ts [Hts Hf]].
  { intros j Hj. destruct H2 as [H2 H3]. specialize (H3 j Hj).
    assert (Hex : j_executor j = name).
    { destruct (String.eqb_spec (j_executor j) name) as [He|He]; [exact He|].
      exfalso. apply H3. intros [H4 _]. contradiction. }
    apply Hall; [|exact Hex]. exact (retained_in _ _ _ H2 j Hj). }
  exists l, ts. auto.
Qed.
Print Assumptions C48_query_exact_partial.

(** One job with counters out of range makes every query that selects it panic. *)
Theorem C48_query_panics : forall D M (c : codec D M) name w m j,
  data_round_trips c -> metadata_round_trips c -> m_poisoned m = false ->
  wencodable (enc_data c) (enc_meta c) w ->
  (forall x, In x (jobs_of m) -> j_executor x = name -> well_typed c x) ->
  In j (jobs_of m) -> j_executor j = name -> wsat (enc_data c) (enc_meta c) w j -> ~ counters_u16 j ->
  query_jobs_on c name w (fun q => mem_query q m) = RPanic.
Proof.
  intros D M c name w m j Hd Hm Hp Hw Hall Hj Hex Hsat Hbad. unfold query_jobs_on.
  destruct (query_of_where (enc_data c) (enc_meta c) w) as [q|] eqn:Hq;
    [|exfalso; apply C23_translation_defined in Hw; congruence].
  destruct (C24_executor_query_memory Debug 0 m D M (enc_data c) (enc_meta c) w q name Hp Hq) as [l [H1 [H2 H3]]].
  cbn [mem_step] in H1. injection H1 as ->. cbn [lift_backend].
  apply typed_all_panic; auto.
  - intros x Hx. assert (Hxe : j_executor x = name).
    { specialize (H3 x Hx). destruct (String.eqb_spec (j_executor x) name) as [He|He]; [exact He|].
      exfalso. apply H3. intros [H4 _]. contradiction. }
    apply Hall; [|exact Hxe]. exact (retained_in _ _ _ H2 x Hx).
  - exists j. split; [|exact Hbad]. eapply retained_in_inv; [exact H2 | exact Hj |]. intro H. apply H. auto.
Qed.
Print Assumptions C48_query_panics.

(** Reading a stored job fails iff its data or its metadata do not decode; if they do, it panics iff a
    counter is out of range. *)
Theorem C48_conversion_outcome : forall D M (c : codec D M) j,
  (unreadable c j <-> typed_of_stored c j = RErr EncodeError)
  /\ ((~ unreadable c j /\ ~ counters_u16 j) <-> typed_of_stored c j = RPanic)
  /\ ((~ unreadable c j /\ counters_u16 j) <-> exists t, typed_of_stored c j = ROk t).
Proof.
  intros D M c j.
  assert (H : (unreadable c j /\ typed_of_stored c j = RErr EncodeError)
    \/ (~ unreadable c j /\ ~ counters_u16 j /\ typed_of_stored c j = RPanic)
    \/ (~ unreadable c j /\ counters_u16 j /\ exists t, typed_of_stored c j = ROk t)).
  { unfold typed_of_stored, unreadable. destruct (dec_data c (j_data j)) as [d|]; [|left; auto].
    assert (Hm : (exists md, dec_opt (dec_meta c) (j_metadata j) = Some md /\
                    ~ (j_metadata j <> JNull /\ dec_meta c (j_metadata j) = None))
      \/ (dec_opt (dec_meta c) (j_metadata j) = None /\ j_metadata j <> JNull /\ dec_meta c (j_metadata j) = None)).
    { unfold dec_opt. destruct (j_metadata j) eqn:E;
        [left; eexists; split; [reflexivity|]; intros [H _]; congruence|..];
        (destruct (dec_meta c _) as [x|];
          [left; eexists; split; [reflexivity|]; intros [_ H]; discriminate
          |right; split; [reflexivity|]; split; [discriminate|reflexivity]]). }
    destruct Hm as [[md [-> Hm]]|[-> Hm]]; [right|left; split; [right; exact Hm|reflexivity]].
    assert (Hu : ~ (Some d = None \/ (j_metadata j <> JNull /\ dec_meta c (j_metadata j) = None))).
    { intros [H|H]; [discriminate|exact (Hm H)]. }
    unfold try_into_u16, in_u16, counters_u16.
    destruct ((0 <=? j_attempt j) && _) eqn:E1; [|left; repeat split; auto; lia].
    destruct ((0 <=? j_max_attempts j) && _) eqn:E2; [|left; repeat split; auto; lia].
    destruct ((0 <=? j_priority j) && _) eqn:E3; [|left; repeat split; auto; lia].
    right. split; [exact Hu|]. split; [lia|]. eauto. }
  destruct H as [[H1 H2]|[[H1 [H2 H3]]|[H1 [H2 [t H3]]]]].
  - rewrite H2. split; [tauto|]. split; (split; [tauto|]); [discriminate|]. intros [t Ht]. discriminate.
  - rewrite H3. split; [split; [tauto|discriminate]|]. split; [tauto|]. split; [tauto|]. intros [t Ht]. discriminate.
  - rewrite H3. split; [split; [tauto|discriminate]|]. split; [split; [tauto|discriminate]|]. split; eauto.
Qed.
Print Assumptions C48_conversion_outcome.

(** One unreadable job makes every query that selects it fail. *)
Theorem C48_query_unreadable : forall D M (c : codec D M) name w m j,
  m_poisoned m = false -> wencodable (enc_data c) (enc_meta c) w ->
  In j (jobs_of m) -> j_executor j = name -> wsat (enc_data c) (enc_meta c) w j -> unreadable c j ->
  (forall x, In x (jobs_of m) -> j_executor x = name -> counters_u16 x) ->
  query_jobs_on c name w (fun q => mem_query q m) = RErr EncodeError.
Proof.
  intros D M c name w m j Hp Hw Hj Hex Hsat Hbad Hall. unfold query_jobs_on.
  destruct (query_of_where (enc_data c) (enc_meta c) w) as [q|] eqn:Hq;
    [|exfalso; apply C23_translation_defined in Hw; congruence].
  destruct (C24_executor_query_memory Debug 0 m D M (enc_data c) (enc_meta c) w q name Hp Hq) as [l [H1 [H2 H3]]].
  cbn [mem_step] in H1. injection H1 as ->. cbn [lift_backend].
  assert (Hl : forall x, In x l -> counters_u16 x).
  { intros x Hx. apply Hall; [exact (retained_in _ _ _ H2 x Hx)|].
    specialize (H3 x Hx). destruct (String.eqb_spec (j_executor x) name) as [He|He]; [exact He|].
    exfalso. apply H3. intros [H4 _]. contradiction. }
  assert (Hjl : In j l) by (eapply retained_in_inv; [exact H2 | exact Hj |]; intro H; apply H; auto).
  clear -Hl Hjl Hbad. induction l as [|x l IH]; [destruct Hjl|]. cbn [typed_of_stored_all].
  destruct (C48_conversion_outcome D M c x) as [O1 [O2 O3]].
  destruct (typed_of_stored c x) as [t|e|] eqn:E.
  - rewrite IH; [reflexivity | intros y Hy; apply Hl; right; exact Hy |].
    destruct Hjl as [->|H]; [|exact H]. apply O1 in Hbad. discriminate.
  - unfold typed_of_stored in E. destruct (dec_data c (j_data x)); [|congruence].
    destruct (dec_opt _ _); [|congruence]. destruct (try_into_u16 _); [|discriminate].
    destruct (try_into_u16 _); [|discriminate]. destruct (try_into_u16 _); discriminate.
  - exfalso. destruct (proj2 O2 eq_refl) as [_ H]. apply H. apply Hl. left. reflexivity.
Qed.
Print Assumptions C48_query_unreadable.

Definition unread_job : job :=
  {| j_id := 9; j_status := Executing; j_executor := mail; j_data := JStr "x"; j_metadata := JStr "not a number";
     j_attempt := 1; j_max_attempts := 3; j_priority := 0; j_tags := []; j_errors := [];
     j_inserted_at := 1; j_scheduled_at := 5; j_attempted_at := Some 6; j_completed_at := None;
     j_cancelled_at := None; j_discarded_at := None |}.
Example C48_unreadable_example :
  unreadable text_codec unread_job /\ counters_u16 unread_job /\ dec_data text_codec (j_data unread_job) <> None
  /\ wsat (enc_data text_codec) (enc_meta text_codec) (WDataEquals "x"%string) unread_job.
Proof.
  split; [right; split; [discriminate|reflexivity]|]. split; [unfold counters_u16; cbn; lia|].
  split; [discriminate|reflexivity].
Qed.

(** Full property refuted: the largest number of attempts a user can ask for, once the job is rerun,
    is out of range for the typed job, and from then on the user cannot query it. *)
Definition max_request : enqueuable :=
  {| eq_executor := mail; eq_data := JStr "x"; eq_metadata := JNull; eq_max_attempts := 65535;
     eq_scheduled_at := 0; eq_tags := []; eq_priority := 0; eq_criteria := None |}.
Theorem C48_never_fails_refuted :
  exists h m, reached Debug h m
    /\ (forall t e, In (t, OpEnqueue e) h -> 0 <= eq_max_attempts e < 2 ^ 16 /\ 0 <= eq_priority e < 2 ^ 16)
    /\ query_jobs_on text_codec mail (WStatusEqual Retryable) (fun q => mem_query q m) = ROk []
    /\ query_jobs_on text_codec mail (WStatusEqual Scheduled) (fun q => mem_query q m) = RPanic.
Proof.
  exists [(0, OpEnqueue max_request); (1, OpLoad mail); (2, OpComplete 0); (3, OpRerun 0)].
  eexists. split; [split; [reflexivity | vm_compute; discriminate]|].
  split; [|split; vm_compute; reflexivity].
  intros t e [H|[H|[H|[H|[]]]]]; try discriminate. injection H as _ <-. cbn. lia.
Qed.
Print Assumptions C48_never_fails_refuted.

Example C48_example :
  well_typed text_codec (new_job 3 0 (req mail 0 1)) /\ counters_u16 (new_job 3 0 (req mail 0 1))
  /\ query_jobs_on text_codec mail (WOr [WIdEquals 1; WDataEquals "payload"%string]) (fun q => mem_query q m_sample)
     <> ROk [].
Proof.
  split; [split; [exists "payload"%string; reflexivity | exists None; reflexivity]|].
  split; [unfold counters_u16; cbn; lia | vm_compute; discriminate].
Qed.

(** * C49 Global backend *)

(** Before a call the global backend is the one named by the first set so far; a set succeeds iff
    it is the first; a call that does not name a backend acts on the global one, and without one
    fails and changes nothing. *)
Theorem C49_set_once : forall D M (c : codec D M) ex p backends before sa rs now call sb r,
  g_run c ex p (mk_gstate None backends) before = Some (sa, rs) ->
  g_step c ex p now sa call = Some (sb, r) ->
  g_cell sa = first_set before
  /\ (forall i, call = GSet i ->
        g_backends sb = g_backends sa
        /\ (first_set before = None -> r = GRUnit (ROk tt) /\ g_cell sb = Some i)
        /\ (forall k, first_set before = Some k ->
              r = GRUnit (RErr GlobalBackendError) /\ g_cell sb = Some k))
  /\ (unaddressed call -> first_set before = None -> sb = sa /\ no_global r)
  /\ (forall i, unaddressed call -> first_set before = Some i ->
        g_step c ex p now sa (addressed i call) = Some (sb, r)).
Proof.
  intros D M c ex p backends before sa rs now call sb r Hrun Hstep.
  destruct (g_run_cell c ex p before _ _ _ Hrun) as [_ Hcell]. cbn in Hcell.
  split; [exact Hcell|]. split; [|split].
  - intros i ->. cbn [g_step] in Hstep. unfold g_set in Hstep. rewrite Hcell in Hstep.
    destruct (first_set before) as [k|]; injection Hstep as <- <-.
    + split; [reflexivity|]. split; [discriminate|]. intros k' E. injection E as <-. auto.
    + split; [reflexivity|]. split; [auto | discriminate].
  - intros Hu Hn. rewrite Hn in Hcell.
    destruct (g_step_no_global c ex p now sa call Hu Hcell) as [r' [H1 H2]].
    rewrite H1 in Hstep. injection Hstep as <- <-. auto.
  - intros i Hu Hn. rewrite Hn in Hcell.
    rewrite <- (g_step_unaddressed c ex p now sa call i Hu Hcell). exact Hstep.
Qed.
Print Assumptions C49_set_once.

(** A call addressed to backend [i] leaves every other backend and the global choice alone; on
    backend [i] it is the call of the backend. *)
Theorem C49_addressed : forall D M (c : codec D M) ex p now s i call s' r k,
  g_step c ex p now s (addressed i call) = Some (s', r) -> (forall j, call <> GSet j) ->
  g_cell s' = g_cell s /\ (k <> i -> nth_error (g_backends s') k = nth_error (g_backends s) k).
Proof.
  intros D M c ex p now s i call s' r k H Hn.
  destruct (g_step_cell c ex p now s (addressed i call) s' r H) as [_ Hc].
  destruct call as [j|on b|on id rs|on id|on t|on w]; [exfalso; apply (Hn j); reflexivity|..];
    (split; [cbn in Hc; destruct (g_cell s); exact Hc|]);
    cbn [g_step addressed] in H; unfold tag_result in H;
    (destruct (on_target s (Some i) _) as [[s1 a]|] eqn:E; [|discriminate]);
    injection H as <- _; intro Hk; eapply on_target_other; eassumption.
Qed.
Print Assumptions C49_addressed.

(** What the addressed calls do on the named backend, in terms of the backend operations. *)
Theorem C49_acts_on_backend : forall D M (c : codec D M) ex p now s i m,
  nth_error (g_backends s) i = Some m ->
  (forall b e r m', request c ex b = Some e -> mem_step p now m (OpEnqueue e) = (m', RId r) ->
     exists s' q, g_step c ex p now s (GEnqueue (Some i) b) = Some (s', GRId q)
       /\ passed_on r q /\ nth_error (g_backends s') i = Some m')
  /\ (forall b, request c ex b = None ->
     g_step c ex p now s (GEnqueue (Some i) b) = Some (s, GRId (RErr EncodeError)))
  /\ (forall id reason r m', mem_step p now m (OpCancelled id (mk_exec_error ECancelled reason)) = (m', RUnit r) ->
     exists s' q, g_step c ex p now s (GCancel (Some i) id reason) = Some (s', GRUnit q)
       /\ passed_on r q /\ nth_error (g_backends s') i = Some m')
  /\ (forall id r m', mem_step p now m (OpRerun id) = (m', RUnit r) ->
     exists s' q, g_step c ex p now s (GRerun (Some i) id) = Some (s', GRUnit q)
       /\ passed_on r q /\ nth_error (g_backends s') i = Some m')
  /\ (forall t j r m', reads_as c j t -> mem_step p now m (OpUpdate j) = (m', RUnit r) ->
     exists s' q, g_step c ex p now s (GUpdate (Some i) t) = Some (s', GRUnit q)
       /\ passed_on r q /\ nth_error (g_backends s') i = Some m')
  /\ (forall t, enc_data c (tj_data t) = None ->
     g_step c ex p now s (GUpdate (Some i) t) = Some (s, GRUnit (RErr EncodeError)))
  /\ (forall w, g_step c ex p now s (GQuery (Some i) w)
      = Some (s, GRJobs (query_jobs_on c (ex_name ex) w (fun q => mem_query q m)))).
Proof.
  intros D M c ex p now s i m Hi.
  assert (Hset : forall m', nth_error (set_nth i m' (g_backends s)) i = Some m').
  { intro m'. clear -Hi. revert i Hi. induction (g_backends s) as [|y l IH]; intros [|i] H; cbn in *;
      try discriminate; [reflexivity | apply IH; exact H]. }
  assert (Hsame : mk_gstate (g_cell s) (set_nth i m (g_backends s)) = s).
  { destruct s as [cell l]. cbn in *. f_equal. clear -Hi. revert i Hi.
    induction l as [|y l IH]; intros [|i] H; cbn in *;
      try discriminate; [congruence | f_equal; apply IH; exact H]. }
  assert (Hpass : forall A (r : result A), passed_on r (lift_backend r)).
  { intros A r. split; [|split]; [intros a -> | intros e -> | intros ->]; reflexivity. }
  cbn [g_step on_target]. unfold on_backend. rewrite Hi. cbn [mem_step].
  unfold enqueue_to, cancel_job_on, rerun_job_on, update_job_on, cancellation.
  split; [|split; [|split; [|split; [|split; [|split]]]]].
  - intros b e r m' Hq Hs. rewrite Hq. destruct (mem_enqueue now m e). cbn.
    injection Hs as <- <-. do 2 eexists. split; [reflexivity|]. split; [apply Hpass | apply Hset].
  - intros b Hq. rewrite Hq. cbn. rewrite Hsame. reflexivity.
  - intros id reason r m' Hs. destruct (mem_mark_cancelled _ _ _ _). cbn.
    injection Hs as <- <-. do 2 eexists. split; [reflexivity|]. split; [apply Hpass | apply Hset].
  - intros id r m' Hs. destruct (mem_rerun _ _ _ _). cbn.
    injection Hs as <- <-. do 2 eexists. split; [reflexivity|]. split; [apply Hpass | apply Hset].
  - intros t j r m' Hra Hs. rewrite (stored_again c j t Hra). destruct (mem_update m j). cbn.
    injection Hs as <- <-. do 2 eexists. split; [reflexivity|]. split; [apply Hpass | apply Hset].
  - intros t Ht. unfold stored_of_typed. rewrite Ht. cbn. rewrite Hsame. reflexivity.
  - intros w. cbn. rewrite Hsame. reflexivity.
Qed.
Print Assumptions C49_acts_on_backend.

Example C49_example :
  let b := mk_builder (Some "x"%string) (None : option Z) None [] 5 0 None in
  exists s, g_run text_codec mailer Debug (mk_gstate None [mem_init; mem_init])
    [(0, GEnqueue None b); (1, GSet 1); (2, GEnqueue None b); (3, GSet 0); (4, GRerun None 0); (5, GRerun None 9)]
  = Some (s, [GRId (RErr GlobalBackendError); GRUnit (ROk tt); GRId (ROk 0);
              GRUnit (RErr GlobalBackendError); GRUnit (ROk tt); GRUnit (RErr (BackendError (JobNotFound 9)))])
  /\ g_cell s = Some 1%nat /\ map (fun m => length (m_jobs m)) (g_backends s) = [0; 1]%nat.
Proof. cbn zeta. eexists. split; [vm_compute; reflexivity|]. split; reflexivity. Qed.

(** * C50 Enqueue assertions *)

(** Full property: an assertion with an expected number passes iff exactly that number of jobs
    satisfy the conditions.  Proved for every form except [1 job, to: b, ...]; that one, and
    [to: b, ...] without a number, pass iff at least one job does. *)
Theorem C50_exact_count_partial : forall f conds m,
  m_poisoned m = false -> f <> OneJobTo -> f <> To ->
  (assertion_passes f conds (Some m) = true <-> exactly (expected f) conds (jobs_of m)).
Proof.
  intros f conds m Hp H1 H2. unfold assertion_passes.
  destruct (assert_query m conds Hp) as [kept [-> [Hk [l ->]]]].
  destruct f; try congruence; cbn [expand expected]; rewrite Z.eqb_eq;
    (split; [intro H; exists kept; auto | intros [kept' [H3 H4]];
       rewrite (exactly_removed_unique _ _ _ _ Hk H3); exact H4]).
Qed.
Print Assumptions C50_exact_count_partial.

Theorem C50_some_job : forall f conds m,
  m_poisoned m = false -> f = OneJobTo \/ f = To ->
  (assertion_passes f conds (Some m) = true
   <-> exists j, In j (jobs_of m) /\ forall c, In c conds -> cond_holds j c).
Proof.
  intros f conds m Hp Hf. unfold assertion_passes.
  destruct (assert_query m conds Hp) as [kept [-> [[Hk1 Hk2] [l ->]]]].
  assert (Hd : forall j c, cond_holds j c \/ ~ cond_holds j c).
  { intros j c. destruct (query_matches (cond_query c) j) eqn:E.
    - left. apply cond_sat. apply query_matches_sat. exact E.
    - right. intro H. apply cond_sat, query_matches_sat in H. congruence. }
  assert (Hds : forall j, (forall c, In c conds -> cond_holds j c) \/ ~ (forall c, In c conds -> cond_holds j c)).
  { intro j. clear -Hd. induction conds as [|c cs IH]; [left; intros c []|].
    destruct (Hd j c) as [H|H]; [|right; intro Ha; apply H, Ha; left; reflexivity].
    destruct IH as [IH|IH].
    - left. intros x [<-|Hx]; auto.
    - right. intro Ha. apply IH. intros x Hx. apply Ha. right. exact Hx. }
  replace (match expand f with Some_job => _ | Exactly n => _ end)
    with (negb match kept with [] => true | _ => false end) by (destruct Hf; subst; reflexivity).
  destruct kept as [|j kept]; cbn; split; try discriminate; try reflexivity.
  - intros [j [Hj Hc]]. exfalso. pose proof (retained_in_inv _ _ _ Hk1 j Hj) as H. apply H. intro Hn. exact (Hn Hc).
  - intros _. exists j. split; [exact (retained_in _ _ _ Hk1 j (or_introl eq_refl))|].
    destruct (Hds j) as [H|H]; [exact H|]. exfalso. exact (Hk2 j (or_introl eq_refl) H).
Qed.
Print Assumptions C50_some_job.

(** Without a global backend the assertion fails. *)
Theorem C50_no_backend : forall f conds, assertion_passes f conds None = false.
Proof. reflexivity. Qed.
Print Assumptions C50_no_backend.

(** Neither does it pass on a backend that a panic has broken. *)
Theorem C50_broken_backend : forall f conds m, m_poisoned m = true -> assertion_passes f conds (Some m) = false.
Proof. intros f conds m Hp. unfold assertion_passes, mem_query, matching_jobs. rewrite Hp. reflexivity. Qed.
Print Assumptions C50_broken_backend.

(** The forms with [to:] look at the backend they name and at no other, the others at the global one,
    and fail without one. *)
Theorem C50_which_backend : forall conds b n,
  (forall f, f = OneJobTo \/ f = JobsTo n \/ f = To ->
     forall global global', assert_enqueued f conds b global = assert_enqueued f conds b global')
  /\ (forall f, f = OneJob \/ f = Jobs n \/ f = Plain ->
        assert_enqueued f conds b None = false /\ forall b' global, assert_enqueued f conds b global = assert_enqueued f conds b' global)
  /\ (m_poisoned b = false ->
        (forall global, assert_enqueued (JobsTo n) conds b global = true <-> exactly n conds (jobs_of b))
        /\ (forall b', assert_enqueued (Jobs n) conds b' (Some b) = true <-> exactly n conds (jobs_of b))).
Proof.
  intros conds b n. split; [|split].
  - intros f [->|[->| ->]] global global'; reflexivity.
  - intros f [->|[->| ->]]; split; reflexivity.
  - intro Hp. split; [intro global|intro b']; unfold assert_enqueued; cbn [uses_global].
    + apply (C50_exact_count_partial (JobsTo n)); [exact Hp|discriminate|discriminate].
    + apply (C50_exact_count_partial (Jobs n)); [exact Hp|discriminate|discriminate].
Qed.
Print Assumptions C50_which_backend.

(** [1 job, to: b] passes with two matching jobs. *)
Theorem C50_one_job_refuted :
  exists conds m, m_poisoned m = false /\ assertion_passes OneJobTo conds (Some m) = true
    /\ ~ exactly (expected OneJobTo) conds (jobs_of m).
Proof.
  exists [ForExecutorC mail], (mem_run Debug mem_init [(0, OpEnqueue (req mail 0 0)); (1, OpEnqueue (req mail 0 0))]).
  split; [reflexivity|]. split; [vm_compute; reflexivity|].
  intro H. apply (C50_exact_count_partial OneJob) in H; [|reflexivity|discriminate|discriminate].
  vm_compute in H. discriminate.
Qed.
Print Assumptions C50_one_job_refuted.

Example C50_example :
  m_poisoned m_sample = false
  /\ assertion_passes (Jobs 2) [ForExecutorC mail; WithDataC (JStr "payload")] (Some m_sample) = true
  /\ assertion_passes (Jobs 3) [ForExecutorC mail] (Some m_sample) = false
  /\ assertion_passes Plain [ForExecutorC push; TaggedWith ["a"%string]] (Some m_sample) = true
  /\ assertion_passes Plain [ForExecutorC mail] (Some m_sample) = false
  /\ assertion_passes To [ForExecutorC mail] (Some m_sample) = true
  /\ assert_enqueued (JobsTo 2) [ForExecutorC mail; WithDataC (JStr "payload")] m_sample None = true
  /\ assert_enqueued (Jobs 2) [ForExecutorC mail; WithDataC (JStr "payload")] mem_init (Some m_sample) = true
  /\ m_poisoned (mem_run Debug m_sample [(0, OpPrune (mk_prune_spec Complete (MaxAge delta_max) (Except [])))]) = true.
Proof. vm_compute. auto 10. Qed.
