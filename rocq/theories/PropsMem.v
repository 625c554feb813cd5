(** Properties of the in-memory backend for sequential histories: every theorem is about every
    store, request, clock reading and history.  Each is followed by an example showing that a
    concrete reachable state meets its hypotheses. *)
From Verif Require Import Base Chrono Types TypesProofs Query Memory MemSpec QueryProofs MemProofs
  MemHist MemHist2 MemNotify WhereSpec WhereProofs MemThms Samples.

(** * C01 Enqueue stores exactly what was described *)

Theorem C01_enqueue_stores : forall p h m now e m' id,
  reached p h m -> enqueues h < 4294967296 -> eq_criteria e = None ->
  mem_step p now m (OpEnqueue e) = (m', RId (Ok id)) ->
  jobs_of m' = jobs_of m ++ [new_job now id e] /\ ~ In id (map j_id (jobs_of m)).
Proof. exact enqueue_stores_lemma. Qed.
Print Assumptions C01_enqueue_stores.

Example C01_example :
  reached Debug h_sample m_sample
  /\ jobs_of (fst (mem_step Debug 10 m_sample (OpEnqueue (req mail 2 9))))
     = jobs_of m_sample ++ [new_job 10 3 (req mail 2 9)]
  /\ length (jobs_of m_sample) = 3%nat.
Proof. split; [split; [vm_compute; reflexivity | vm_compute; discriminate] | vm_compute; auto]. Qed.

(** The enqueue does succeed on a working backend. *)
Theorem C01_enqueue_succeeds : forall p now m e,
  m_poisoned m = false -> eq_criteria e = None ->
  exists m' id, mem_step p now m (OpEnqueue e) = (m', RId (Ok id)) /\ m_poisoned m' = false.
Proof.
  intros p now m e Hp He. cbn [mem_step]. unfold mem_enqueue. rewrite He.
  destruct (insert_new_job_ok now m e Hp) as [m' [-> [_ [_ [H _]]]]]. eauto.
Qed.
Print Assumptions C01_enqueue_succeeds.

(** * C03 (sequential) An accepted job is never lost *)

(** If a job that was in the store is gone, some prune in between had it in its scope. *)
Theorem C03_never_lost_sequential : forall p h1 h2 m id,
  reached p (h1 ++ h2) m ->
  In id (map j_id (jobs_of (mem_run p mem_init h1))) ->
  In id (map j_id (jobs_of m))
  \/ exists a now ps b j, h2 = a ++ (now, OpPrune ps) :: b
       /\ In j (jobs_of (mem_run p mem_init (h1 ++ a))) /\ j_id j = id /\ in_scope ps j.
Proof.
  intros p h1 h2 m id Hr Hin. destruct (reached_app _ _ _ _ Hr) as [Hr1 ->].
  destruct (reached_id_inv _ _ _ Hr1) as [n [Hn Hi]]. rewrite !jobs_of_ids in *.
  destruct (history_keeps p h2 _ n id Hi) as [H|[a [now [ps [b [j [H1 [H2 H3]]]]]]]]; auto.
  - rewrite weights_enqueues. destruct Hr as [_ Hr]. unfold enqueues in *.
    rewrite filter_app, app_length in Hr. lia.
  - right. exists a, now, ps, b, j. rewrite mem_run_app. auto.
Qed.
Print Assumptions C03_never_lost_sequential.

Example C03_example :
  reached Debug (h_sample ++ [(10, OpCancelled 2 stop)]) (mem_run Debug m_sample [(10, OpCancelled 2 stop)])
  /\ In 2 (map j_id (jobs_of (mem_run Debug mem_init h_sample))).
Proof. split; [split; [vm_compute; reflexivity | vm_compute; discriminate] | vm_compute; auto]. Qed.

(** * C04, C05 Hand-out *)

Theorem C04_hand_out : forall p now m ex,
  m_poisoned m = false -> counters_in_range m ->
  let (m', r) := mem_step p now m (OpLoad ex) in
  (exists pre j post,
      r = RJob (Ok (Some (after_hand_out now j)))
      /\ jobs_of m = pre ++ j :: post /\ jobs_of m' = pre ++ after_hand_out now j :: post
      /\ due now ex j)
  \/ (r = RJob (Ok None) /\ jobs_of m' = jobs_of m /\ forall j, In j (jobs_of m) -> ~ due now ex j).
Proof.
  intros p now m ex Hp Hc. pose proof (hand_out_lemma p now m ex Hp Hc) as H.
  destruct (mem_step p now m (OpLoad ex)) as [m' r].
  destruct H as [[pre [j [post [H1 [H2 [H3 [H4 _]]]]]]]|H]; [left; exists pre, j, post|]; auto.
Qed.
Print Assumptions C04_hand_out.

(** The job handed out is the first in the order of schedule, priority, enqueue. *)
Theorem C05_hand_out_order : forall p now m ex m' j',
  m_poisoned m = false -> counters_in_range m ->
  mem_step p now m (OpLoad ex) = (m', RJob (Ok (Some j'))) ->
  exists pre j post,
    jobs_of m = pre ++ j :: post /\ j' = after_hand_out now j
    /\ (forall x, In x pre -> due now ex x -> strictly_before j x)
    /\ (forall x, In x post -> due now ex x -> ~ strictly_before x j).
Proof.
  intros p now m ex m' j' Hp Hc Hs. pose proof (hand_out_lemma p now m ex Hp Hc) as H.
  rewrite Hs in H. destruct H as [[pre [j [post [H1 [H2 [H3 [H4 [H5 H6]]]]]]]]|[H _]]; [|discriminate].
  injection H1 as ->. exists pre, j, post. auto.
Qed.
Print Assumptions C05_hand_out_order.

Example C04_C05_example :
  m_poisoned m_sample = false /\ counters_in_range m_sample
  /\ snd (mem_step Debug 10 m_sample (OpLoad push))
     = RJob (Ok (Some (after_hand_out 10 (new_job 3 2 (req push 0 4))))).
Proof.
  split; [reflexivity|]. split; [|reflexivity].
  intros j Hj. list_in Hj. repeat (destruct Hj as [<-|Hj]; [cbn; lia|]). destruct Hj.
Qed.

(** * C09, C10 Uniqueness without overlapping calls *)

Theorem C09_sequential_uniqueness : forall p h m now e m' id,
  reached p h m -> mem_step p now m (OpEnqueue e) = (m', RId (Ok id)) ->
  ((forall k, In k (m_jobs m) -> ~ conflicts_mem now e k)
    /\ m_jobs m' = m_jobs m ++ [mk_kjob (new_job now id e)
                                 (match eq_criteria e with Some uq => uc_key uq | None => None end)])
  \/ (exists k, In k (m_jobs m) /\ conflicts_mem now e k /\ j_id (kj_job k) = id
        /\ length (m_jobs m') = length (m_jobs m)
        /\ map j_id (jobs_of m') = map j_id (jobs_of m)).
Proof.
  intros p h m now e m' id Hr Hs.
  destruct (uniqueness_lemma _ _ _ _ _ _ _ Hr Hs) as [H|[pre [k [post [H1 [H2 [H3 [H4 H5]]]]]]]]; [auto|].
  right. exists k. unfold jobs_of. rewrite H1, H2. repeat split; auto.
  - apply in_mid. auto.
  - rewrite !app_length. reflexivity.
  - rewrite !map_map, !map_app. cbn. rewrite after_conflict_id. reflexivity.
Qed.
Print Assumptions C09_sequential_uniqueness.

(** Criteria: same executor, status scheduled, key 77, do nothing. *)
Definition crit77 : criteria := mk_criteria (Some 77) true None [Scheduled] DoNothing.

Example C09_example :
  let m1 := fst (mem_step Debug 20 m_sample (OpEnqueue (ureq mail 1 30 crit77))) in
  snd (mem_step Debug 20 m_sample (OpEnqueue (ureq mail 1 30 crit77))) = RId (Ok 3)
  /\ length (jobs_of m1) = 4%nat
  /\ mem_step Debug 21 m1 (OpEnqueue (ureq mail 9 99 crit77)) = (notify_subscribers mail 30 m1, RId (Ok 3)).
Proof. vm_compute. auto. Qed.

(** A conflict changes at most the first conflicting job, as the policy says. *)
Theorem C10_conflict_replacement : forall p h m now e m' id k0,
  reached p h m -> mem_step p now m (OpEnqueue e) = (m', RId (Ok id)) ->
  In k0 (m_jobs m) -> conflicts_mem now e k0 ->
  exists pre k post,
    m_jobs m = pre ++ k :: post
    /\ m_jobs m' = pre ++ mk_kjob (after_conflict e (kj_job k)) (kj_key k) :: post
    /\ conflicts_mem now e k /\ j_id (kj_job k) = id
    /\ (forall x, In x pre -> ~ conflicts_mem now e x).
Proof.
  intros p h m now e m' id k0 Hr Hs Hk Hc.
  destruct (uniqueness_lemma _ _ _ _ _ _ _ Hr Hs) as [[H _]|H]; [|exact H].
  exfalso. exact (H k0 Hk Hc).
Qed.
Print Assumptions C10_conflict_replacement.

Definition crit_replace : criteria :=
  mk_criteria None true None [Scheduled; Complete]
    (Replace (mk_replace true true false true false [Complete])).

Example C10_example :
  let e := ureq mail 9 99 crit_replace in
  let m1 := fst (mem_step Debug 20 m_sample (OpEnqueue e)) in
  snd (mem_step Debug 20 m_sample (OpEnqueue e)) = RId (Ok 0)
  /\ nth_error (jobs_of m1) 0 = option_map (after_conflict e) (nth_error (jobs_of m_sample) 0)
  /\ option_map j_scheduled_at (nth_error (jobs_of m1) 0) = Some 99
  /\ skipn 1 (jobs_of m1) = skipn 1 (jobs_of m_sample).
Proof. vm_compute. auto. Qed.

(** * C11 Key-less criteria ignore keyed jobs (refuted) *)

(** The full property: a request without a key that agrees with a stored job on everything the
    criteria mention is not inserted again.  It fails when the stored job was enqueued with a
    key. *)
Theorem C11_keyless_criteria_refuted :
  exists h m now e k m' id,
    reached Debug h m /\ In k (m_jobs m)
    /\ (exists uq, eq_criteria e = Some uq /\ uc_key uq = None /\ uc_executor uq = true
         /\ eq_executor e = j_executor (kj_job k) /\ In (j_status (kj_job k)) (uc_statuses uq)
         /\ uc_duration uq = None)
    /\ mem_step Debug now m (OpEnqueue e) = (m', RId (Ok id))
    /\ length (jobs_of m') = S (length (jobs_of m)).
Proof.
  set (e1 := ureq mail 0 30 crit77).
  set (e2 := ureq mail 0 30 (mk_criteria None true None [Scheduled] DoNothing)).
  exists [(1, OpEnqueue e1)], (mem_run Debug mem_init [(1, OpEnqueue e1)]), 2, e2,
    (mk_kjob (new_job 1 0 e1) (Some 77)),
    (mem_run Debug mem_init [(1, OpEnqueue e1); (2, OpEnqueue e2)]), 1.
  split; [split; [vm_compute; reflexivity | vm_compute; discriminate]|].
  split; [vm_compute; auto|].
  split; [eexists; split; [reflexivity|]; vm_compute; tauto|].
  vm_compute. auto.
Qed.
Print Assumptions C11_keyless_criteria_refuted.

(** * C13 Status operations touch exactly one job *)

Theorem C13_status_operations : forall p now m o id f,
  m_poisoned m = false -> counters_in_range m -> report_effect now o = Some (id, f) ->
  let (m', r) := mem_step p now m o in
  (r = RUnit (Ok tt) /\ exists j, changed_one id j (f j) (jobs_of m) (jobs_of m'))
  \/ (r = RUnit (Err (JobNotFound id)) /\ m' = m /\ forall j, In j (jobs_of m) -> j_id j <> id).
Proof. exact report_lemma. Qed.
Print Assumptions C13_status_operations.

Example C13_example :
  report_effect 50 (OpDiscarded 1 boom) = Some (1, after_discarded 50 (EOther "custom") "boom")
  /\ snd (mem_step Debug 50 m_sample (OpDiscarded 1 boom)) = RUnit (Ok tt)
  /\ map j_status (jobs_of (fst (mem_step Debug 50 m_sample (OpDiscarded 1 boom))))
     = [Complete; Discarded; Scheduled]
  /\ mem_step Debug 50 m_sample (OpDiscarded 9 boom) = (m_sample, RUnit (Err (JobNotFound 9))).
Proof. vm_compute. auto. Qed.

(** * C14, C16 Attempts and errors as a function of what happened *)

Theorem C14_attempt_accounting : forall p h m j,
  reached p h m -> no_updates h -> Z.of_nat (length h) <= 2147483647 -> In j (jobs_of m) ->
  j_attempt j = count (hands_out (j_id j)) (mem_trace p mem_init h)
                - count (snoozes (j_id j)) (mem_trace p mem_init h).
Proof.
  intros p h m j Hr Hu Hl Hj. rewrite <- ledger_counts.
  rewrite (ledger_of_reached p h m Hr Hu Hl j Hj). reflexivity.
Qed.
Print Assumptions C14_attempt_accounting.

Theorem C16_error_history : forall p h m j,
  reached p h m -> no_updates h -> Z.of_nat (length h) <= 2147483647 -> In j (jobs_of m) ->
  j_errors j = snd (ledger (j_id j) (mem_trace p mem_init h)).
Proof.
  intros p h m j Hr Hu Hl Hj. rewrite (ledger_of_reached p h m Hr Hu Hl j Hj). reflexivity.
Qed.
Print Assumptions C16_error_history.

(** The list computed from the trace only grows at its end. *)
Theorem C16_append_only : forall id tr tr',
  exists more, snd (ledger id (tr ++ tr')) = snd (ledger id tr) ++ more.
Proof.
  intros id tr tr'. induction tr' as [|ev tr' IH] using rev_ind.
  - exists []. rewrite !app_nil_r. reflexivity.
  - destruct IH as [more IH]. rewrite app_assoc, ledger_snoc.
    destruct (ledger id (tr ++ tr')) as [a es]. cbn in IH. subst es.
    destruct ev as [[now o] r].
    destruct o, r as [[]|[]|[[]|?|]|[]]; cbn; try (exists more; reflexivity);
      destruct Z.eq_dec; cbn; try (exists more; reflexivity);
      rewrite <- app_assoc; eexists; reflexivity.
Qed.
Print Assumptions C16_append_only.

Example C14_C16_example :
  reached Debug h_sample m_sample /\ no_updates h_sample
  /\ map j_attempt (jobs_of m_sample) = [0; 2; 0]
  /\ count (hands_out 0) (mem_trace Debug mem_init h_sample) = 1
  /\ count (snoozes 0) (mem_trace Debug mem_init h_sample) = 1
  /\ ledger 1 (mem_trace Debug mem_init h_sample)
     = (2, [mk_job_error 1 (EOther "custom") "boom" 5]).
Proof.
  split; [split; [vm_compute; reflexivity | vm_compute; discriminate]|].
  split; [|vm_compute; auto].
  intros now j H. list_in H. repeat (destruct H as [H|H]; [discriminate|]). exact H.
Qed.

(** * C15 Snoozing does not use up an attempt *)

Theorem C15_snooze_restores : forall p now now' m ex m1 j1 t,
  m_poisoned m = false -> counters_in_range m -> NoDup (map j_id (jobs_of m)) ->
  mem_step p now m (OpLoad ex) = (m1, RJob (Ok (Some j1))) ->
  exists pre j post,
    jobs_of m = pre ++ j :: post /\ j_id j = j_id j1
    /\ jobs_of (fst (mem_step p now' m1 (OpSnoozed (j_id j1) t)))
       = pre
         ++ {| j_id := j_id j;
               j_status := if Z.eq_dec (j_attempt j) 0 then Scheduled else Retryable;
               j_executor := j_executor j; j_data := j_data j; j_metadata := j_metadata j;
               j_attempt := j_attempt j; j_max_attempts := j_max_attempts j;
               j_priority := j_priority j; j_tags := j_tags j; j_errors := j_errors j;
               j_inserted_at := j_inserted_at j; j_scheduled_at := t;
               j_attempted_at := Some now; j_completed_at := j_completed_at j;
               j_cancelled_at := j_cancelled_at j; j_discarded_at := j_discarded_at j |}
         :: post.
Proof.
  intros p now now' m ex m1 j1 t Hp Hc Hnd Hs.
  pose proof (hand_out_lemma p now m ex Hp Hc) as H. rewrite Hs in H.
  destruct H as [[pre [j [post [H1 [H2 [H3 _]]]]]]|[H _]]; [|discriminate]. injection H1 as ->.
  exists pre, j, post. split; [exact H2|]. split; [reflexivity|].
  assert (Hp1 : m_poisoned m1 = false).
  { cbn [mem_step] in Hs. pose proof (mem_load_spec p now m ex Hp) as Hl.
    destruct (mem_load p now m ex) as [m2 [[j2|]|e|]]; try discriminate. injection Hs as <- _.
    destruct Hl as [? [? [? [_ [_ [_ [-> _]]]]]]]. exact Hp. }
  cbn [mem_step]. unfold mem_mark_snoozed, with_job. rewrite Hp1. cbn [j_id after_hand_out].
  destruct (split_first (fun k => j_id (kj_job k) =? j_id j) (m_jobs m1)) as [[[a k] b]|] eqn:Ef.
  - apply split_first_some in Ef. destruct Ef as [Ef1 [Ef2 Ef3]]. apply Z.eqb_eq in Ef2.
    unfold jobs_of in H3. rewrite Ef1, map_app_cons in H3.
    assert (Hnd' : NoDup (map j_id (pre ++ after_hand_out now j :: post))).
    { rewrite H2 in Hnd. rewrite map_app in *. exact Hnd. }
    rewrite <- H3 in Hnd'.
    destruct (nodup_app_unique j_id _ _ _ _ _ _ Hnd' H3) as [Ha [Hk Hb]]; [exact Ef2|].
    rewrite Hk. pose proof (Hc j ltac:(rewrite H2; apply in_mid; auto)) as Hcj.
    destruct (job_snoozed p t (after_hand_out now j)) as [j'|] eqn:Es.
    + apply job_snoozed_spec in Es; [|cbn; lia]. cbn [fst]. unfold jobs_of.
      rewrite notify_jobs. cbn [set_jobs m_jobs]. rewrite map_app_cons, Ha, Hb. cbn [kj_job]. subst j'.
      unfold after_snoozed. cbn.
      replace (j_attempt j + 1 - 1) with (j_attempt j) by lia.
      destruct (Z.eq_dec (j_attempt j + 1) 1), (Z.eq_dec (j_attempt j) 0); try lia; reflexivity.
    + apply job_snoozed_none in Es. cbn in Es. lia.
  - exfalso. rewrite split_first_none in Ef.
    assert (Hin : In (after_hand_out now j) (jobs_of m1)) by (rewrite H3; apply in_mid; auto).
    apply in_map_iff in Hin. destruct Hin as [k [Hk Hin]]. apply Ef in Hin. rewrite Hk in Hin.
    cbn in Hin. lia.
Qed.
Print Assumptions C15_snooze_restores.

Example C15_example :
  exists m1 j1, mem_step Debug 10 m_sample (OpLoad push) = (m1, RJob (Ok (Some j1)))
    /\ NoDup (map j_id (jobs_of m_sample)) /\ m_poisoned m_sample = false.
Proof.
  eexists. eexists. split; [vm_compute; reflexivity|]. split; [|reflexivity].
  vm_compute. repeat constructor; cbn; intuition discriminate.
Qed.

(** * C19 Rerun *)

Theorem C19_rerun : forall p now m m' id,
  m_poisoned m = false -> counters_in_range m ->
  mem_step p now m (OpRerun id) = (m', RUnit (Ok tt)) ->
  exists j j', changed_one id j j' (jobs_of m) (jobs_of m')
    /\ waiting j' /\ j_scheduled_at j' = now /\ due now (j_executor j) j'
    /\ j_completed_at j' = None /\ j_cancelled_at j' = None /\ j_discarded_at j' = None
    /\ j_max_attempts j' - j_attempt j' = j_max_attempts j - j_attempt j + 1
    /\ j_attempt j' = j_attempt j /\ j_errors j' = j_errors j /\ j_attempted_at j' = j_attempted_at j
    /\ j_data j' = j_data j /\ j_metadata j' = j_metadata j /\ j_tags j' = j_tags j
    /\ j_priority j' = j_priority j /\ j_executor j' = j_executor j /\ j_id j' = j_id j
    /\ j_inserted_at j' = j_inserted_at j.
Proof.
  intros p now m m' id Hp Hc Hs.
  pose proof (report_lemma p now m (OpRerun id) id (after_rerun now) Hp Hc eq_refl) as H.
  rewrite Hs in H. destruct H as [[_ [j H]]|[H _]]; [|discriminate].
  exists j, (after_rerun now j). split; [exact H|]. unfold due, waiting. cbn.
  destruct (Z.eq_dec (j_attempt j) 1); repeat split; auto; lia.
Qed.
Print Assumptions C19_rerun.

Example C19_example :
  mem_step Debug 60 m_sample (OpRerun 0)
  = (fst (mem_step Debug 60 m_sample (OpRerun 0)), RUnit (Ok tt))
  /\ map j_status (jobs_of m_sample) = [Complete; Executing; Scheduled].
Proof. vm_compute. auto. Qed.

(** * C20 A cancelled job does not run again *)

(** Full property: no hand-out after a successful cancel unless the job is rerun or updated.
    Proved: no hand-out unless the job is rerun, updated, or a worker that still holds it reports
    a retry or a snooze ([releases]).  Missing: that last case, refuted below. *)
Theorem C20_cancelled_partial : forall p h1 now id e h2 m1,
  reached p h1 m1 -> enqueues h1 + enqueues h2 <= 4294967296 ->
  snd (mem_step p now m1 (OpCancelled id e)) = RUnit (Ok tt) ->
  (forall t o, In (t, o) h2 -> ~ releases id o) ->
  count (hands_out id) (mem_trace p (fst (mem_step p now m1 (OpCancelled id e))) h2) = 0.
Proof.
  intros p h1 now id e h2 m1 Hr Hw Hs Hall.
  destruct (reached_id_inv _ _ _ Hr) as [n [Hn Hi]].
  pose proof (weights_nonneg h2) as Hw2. rewrite weights_enqueues in Hw2.
  destruct (id_inv_step p now m1 (OpCancelled id e) n Hi ltac:(cbn [weight]; lia)) as [n' [Hn' Hi']].
  cbn [weight] in Hn'.
  pose proof (mem_step_jstep p now m1 (OpCancelled id e) (ii_nodup _ _ Hi)) as Hj.
  destruct (mem_step p now m1 (OpCancelled id e)) as [m' r]. cbn [fst snd] in *. subst r.
  assert (Hd : drawn n' id /\ none_waiting id (m_jobs m')).
  { pose proof (ii_nodup _ _ Hi') as Hnd'. pose proof (ii_drawn _ _ Hi') as Hdr.
    remember (m_jobs m') as l' eqn:El'. clear El'. remember (m_jobs m1) as l eqn:El. clear El.
    remember (OpCancelled id e) as o eqn:Eo. remember (RUnit (Ok tt)) as r eqn:Er.
    destruct Hj as [o r l H|e0 i0 l H|e0 pre k0 post H H0|ex pre k0 post j' H H0|o i0 pre k0 post j' H H0 H1|ps l l' H];
      try discriminate; subst.
    - cbn in H. contradiction.
    - inversion H; subst. split.
      + apply Hdr.
        exact (ids_in _ (mk_kjob (after_cancelled now (ee_type e) (ee_message e) (kj_job k0)) (kj_key k0))
                 ltac:(apply in_mid; auto)).
      + intros k Hk Hid Hwt. apply in_mid in Hk. destruct Hk as [->|Hk].
        * unfold waiting in Hwt. cbn in Hwt. intuition discriminate.
        * apply (nodup_other (fun k => j_id (kj_job k)) _ _ _ k Hnd' Hk). exact Hid. }
  apply (history_none_waiting p h2 m' n' id Hi'); try apply Hd; auto.
  rewrite weights_enqueues. lia.
Qed.
Print Assumptions C20_cancelled_partial.

Example C20_example :
  snd (mem_step Debug 10 m_sample (OpCancelled 2 stop)) = RUnit (Ok tt)
  /\ mem_trace Debug (fst (mem_step Debug 10 m_sample (OpCancelled 2 stop))) [(11, OpLoad push)]
     = [(11, OpLoad push, RJob (Ok None))].
Proof. vm_compute. auto. Qed.

(** A cancel issued while the job is executing is undone by the worker's own report. *)
Theorem C20_cancelled_refuted :
  exists h1 now id e h2 m1,
    reached Debug h1 m1
    /\ snd (mem_step Debug now m1 (OpCancelled id e)) = RUnit (Ok tt)
    /\ (forall t o, In (t, o) h2 -> match o with OpRerun _ | OpUpdate _ => False | _ => True end)
    /\ count (hands_out id) (mem_trace Debug (fst (mem_step Debug now m1 (OpCancelled id e))) h2) = 1.
Proof.
  exists [(1, OpEnqueue (req mail 0 1)); (2, OpLoad mail)], 3, 0, stop,
    [(4, OpRetryable 0 5 boom); (6, OpLoad mail)],
    (mem_run Debug mem_init [(1, OpEnqueue (req mail 0 1)); (2, OpLoad mail)]).
  split; [split; [vm_compute; reflexivity | vm_compute; discriminate]|].
  split; [reflexivity|]. split; [|reflexivity].
  intros t o [H|[H|[]]]; injection H as _ <-; exact I.
Qed.
Print Assumptions C20_cancelled_refuted.

(** * C21 Finished jobs stay finished *)

Theorem C21_finished_stays : forall p h1 h2 m1 j,
  reached p h1 m1 -> enqueues h1 + enqueues h2 <= 4294967296 ->
  In j (jobs_of m1) -> finished j ->
  (forall t o, In (t, o) h2 -> ~ concerns (j_id j) o /\ ~ prunes j o /\ ~ replacing_enqueue o) ->
  In j (jobs_of (mem_run p m1 h2)) /\ count (hands_out (j_id j)) (mem_trace p m1 h2) = 0.
Proof.
  intros p h1 h2 m1 j Hr Hw Hj Hf Hall. destruct (reached_id_inv _ _ _ Hr) as [n [Hn Hi]].
  apply in_map_iff in Hj. destruct Hj as [k [<- Hk]].
  destruct (history_finished_kept p h2 m1 n k Hi) as [H1 H2]; auto.
  - rewrite weights_enqueues. lia.
  - split; [apply in_map; exact H1 | exact H2].
Qed.
Print Assumptions C21_finished_stays.

Example C21_example :
  finished (nth 0 (jobs_of m_sample) (new_job 0 0 (req mail 0 0)))
  /\ (forall t o, In (t, o) [(20, OpLoad mail); (21, OpComplete 1); (22, OpEnqueue (req mail 0 0))] ->
        ~ concerns 0 o /\ ~ prunes (nth 0 (jobs_of m_sample) (new_job 0 0 (req mail 0 0))) o
        /\ ~ replacing_enqueue o).
Proof.
  split; [left; reflexivity|]. intros t o [H|[H|[H|[]]]]; injection H as <- <-; cbn; repeat split; try lia; auto.
  intros [uq [r [H _]]]. discriminate.
Qed.

(** * C22 Query returns exactly the matching jobs *)

Theorem C22_query_exact : forall p now m q,
  m_poisoned m = false ->
  exists l, mem_step p now m (OpQuery q) = (m, RJobs (Ok l))
    /\ exactly_removed (fun j => ~ sat q j) (jobs_of m) l.
Proof. exact query_lemma. Qed.
Print Assumptions C22_query_exact.

(** [sat] is two-valued. *)
Theorem C22_sat_decided : forall q j, sat q j <-> ~ unsat q j.
Proof. exact sat_xor_unsat. Qed.
Print Assumptions C22_sat_decided.

Example C22_example :
  mem_step Debug 0 m_sample
    (OpQuery (QAnd [QNot (QStatusEqual Complete); QOr [QIdIn [0; 1]; QTagsAllOf ["z"%string]]]))
  = (m_sample, RJobs (Ok [nth 1 (jobs_of m_sample) (new_job 0 0 (req mail 0 0))])).
Proof. vm_compute. reflexivity. Qed.

(** * C23 Query combinators *)

Theorem C23_and : forall D M (ed : D -> option json) (em : M -> option json) a b j,
  wsat ed em (where_and a b) j <-> wsat ed em a j /\ wsat ed em b j.
Proof. exact @wsat_where_and. Qed.
Print Assumptions C23_and.
Theorem C23_or : forall D M (ed : D -> option json) (em : M -> option json) a b j,
  wsat ed em (where_or a b) j <-> wsat ed em a j \/ wsat ed em b j.
Proof. exact @wsat_where_or. Qed.
Print Assumptions C23_or.
Theorem C23_not : forall D M (ed : D -> option json) (em : M -> option json) a j,
  wsat ed em (where_not a) j <-> ~ wsat ed em a j.
Proof. intros D M ed em a j. reflexivity. Qed.
Print Assumptions C23_not.
(** The expression sent to the backend keeps the meaning of the user's expression, and there is one
    exactly when every value in it can be serialized. *)
Theorem C23_translation : forall D M (ed : D -> option json) (em : M -> option json) w q j,
  query_of_where ed em w = Some q -> (sat q j <-> wsat ed em w j).
Proof. intros D M ed em w q j H. exact (translate_meaning ed em w q j H). Qed.
Print Assumptions C23_translation.
Theorem C23_translation_defined : forall D M (ed : D -> option json) (em : M -> option json) w,
  query_of_where ed em w <> None <-> wencodable ed em w.
Proof. exact @translate_defined. Qed.
Print Assumptions C23_translation_defined.
(** The constructors that look at the clock. *)
Theorem C23_older_than : forall D M (ed : D -> option json) (em : M -> option json) now d w j,
  where_older_than now d = Some w -> (wsat ed em w j <-> now - j_scheduled_at j > d).
Proof.
  intros D M ed em now d w j H. unfold where_older_than, dt_sub in H.
  destruct (in_dt (now - d)); [|discriminate]. injection H as <-. cbn. lia.
Qed.
Print Assumptions C23_older_than.
Theorem C23_within_the_last : forall D M (ed : D -> option json) (em : M -> option json) now d w j,
  where_within_the_last now d = Some w -> (wsat ed em w j <-> now - j_scheduled_at j < d).
Proof.
  intros D M ed em now d w j H. unfold where_within_the_last, dt_sub in H.
  destruct (in_dt (now - d)); [|discriminate]. injection H as <-. cbn. lia.
Qed.
Print Assumptions C23_within_the_last.

Definition enc_str (s : string) : option json := Some (JStr s).
Example C23_example :
  query_of_where enc_str enc_str
    (where_and (where_or (WStatusEqual Complete) (WDataEquals "x"%string)) (where_not (WIdEquals 3)))
  = Some (QAnd [QOr [QStatusEqual Complete; QDataEquals (JStr "x")]; QNot (QIdEquals 3)])
  /\ where_older_than (D := string) (M := string) 1000 10 = Some (WScheduledAtBefore 990)
  /\ where_within_the_last (D := string) (M := string) 1000 10 = Some (WScheduledAtAfter 990).
Proof. vm_compute. auto. Qed.

(** * C24 Executor queries (in-memory backend) *)

Theorem C24_executor_query_memory : forall p now m D M (ed : D -> option json) (em : M -> option json) w q ex,
  m_poisoned m = false -> query_of_where ed em w = Some q ->
  exists l, mem_step p now m (OpQuery (for_executor q ex)) = (m, RJobs (Ok l))
    /\ exactly_removed (fun j => ~ (j_executor j = ex /\ wsat ed em w j)) (jobs_of m) l.
Proof.
  intros p now m D M ed em w q ex Hp Hq.
  destruct (query_lemma p now m (for_executor q ex) Hp) as [l [H1 [H2 H3]]].
  exists l. split; [exact H1|].
  assert (Hiff : forall j, sat (for_executor q ex) j <-> j_executor j = ex /\ wsat ed em w j).
  { intro j. rewrite for_executor_sat, (translate_meaning ed em w q j Hq). reflexivity. }
  split.
  - clear H1 H3. induction H2 as [|x l0 l1 H IH|x l0 l1 Hx H IH]; [constructor|constructor; exact IH|].
    apply ret_drop; [|exact IH]. rewrite <- Hiff. exact Hx.
  - intros x Hx. rewrite <- Hiff. auto.
Qed.
Print Assumptions C24_executor_query_memory.

Example C24_example :
  mem_step Debug 0 m_sample (OpQuery (for_executor (QOr [QIdEquals 0; QIdEquals 2]) push))
  = (m_sample, RJobs (Ok [nth 2 (jobs_of m_sample) (new_job 0 0 (req mail 0 0))]))
  /\ query_of_where enc_str enc_str (WOr [WIdEquals 0; WIdEquals 2]) = Some (QOr [QIdEquals 0; QIdEquals 2]).
Proof. vm_compute. auto. Qed.

(** * C25 Age pruning *)

(** Full property: exactly the jobs in scope scheduled more than [d] ago go.  Proved: exactly those
    and the ones scheduled at least [d] in the future go, so that every old job is removed.
    Missing: the jobs scheduled in the future, refuted below. *)
Theorem C25_age_pruning_partial : forall p now m ps d m',
  ps_by ps = MaxAge d -> mem_step p now m (OpPrune ps) = (m', RUnit (Ok tt)) ->
  exactly_removed
    (fun j => in_scope ps j /\ (j_scheduled_at j <= now - d \/ now + d <= j_scheduled_at j))
    (jobs_of m) (jobs_of m').
Proof. exact age_prune_lemma. Qed.
Print Assumptions C25_age_pruning_partial.

Example C25_example :
  mem_step Debug 1000 m_sample (OpPrune (mk_prune_spec Scheduled (MaxAge 100) (Except [])))
  = (fst (mem_step Debug 1000 m_sample (OpPrune (mk_prune_spec Scheduled (MaxAge 100) (Except [])))), RUnit (Ok tt))
  /\ map j_id (jobs_of (fst (mem_step Debug 1000 m_sample (OpPrune (mk_prune_spec Scheduled (MaxAge 100) (Except []))))))
     = [0; 1].
Proof. vm_compute. auto. Qed.

(** A completed job that is younger than [d] is removed. *)
Theorem C25_age_pruning_refuted :
  exists h m now ps d m' j,
    reached Debug h m /\ ps_by ps = MaxAge d /\ 0 < d
    /\ mem_step Debug now m (OpPrune ps) = (m', RUnit (Ok tt))
    /\ In j (jobs_of m) /\ now - j_scheduled_at j < d /\ j_status j = Complete
    /\ ~ In j (jobs_of m').
Proof.
  exists [(1, OpEnqueue (req mail 0 (90 * ms))); (2, OpLoad mail); (3, OpComplete 0)].
  eexists. exists 4, (mk_prune_spec Complete (MaxAge (50 * ms)) (Except [])), (50 * ms).
  eexists. eexists.
  split; [split; [vm_compute; reflexivity | vm_compute; discriminate]|].
  split; [reflexivity|]. split; [reflexivity|].
  split; [vm_compute; reflexivity|].
  split; [vm_compute; left; reflexivity|]. split; [reflexivity|]. split; [reflexivity|].
  vm_compute. tauto.
Qed.
Print Assumptions C25_age_pruning_refuted.

(** * C26 Length pruning *)

(** Full property: at most [n] jobs in scope remain, the newest ones.  The in-memory backend does
    the opposite: it removes the [n] oldest jobs in scope and keeps all others.  Proved: exactly
    that. *)
Theorem C26_length_pruning_partial : forall p now m ps n m',
  0 <= n -> ps_by ps = MaxLength n -> mem_step p now m (OpPrune ps) = (m', RUnit (Ok tt)) ->
  exists a b a', jobs_of m = a ++ b /\ jobs_of m' = a' ++ b
    /\ exactly_removed (in_scope ps) a a'
    /\ exists removed, NoDup removed /\ (forall i, In i removed <-> (i < length a)%nat /\
             exists j, nth_error a i = Some j /\ in_scope ps j)
       /\ (Z.of_nat (length removed) = n \/ (Z.of_nat (length removed) < n /\ b = [])).
Proof. exact length_prune_lemma. Qed.
Print Assumptions C26_length_pruning_partial.

Definition three_scheduled : list (time * mop) :=
  [(1, OpEnqueue (req mail 0 5)); (2, OpEnqueue (req mail 0 6)); (3, OpEnqueue (req mail 0 7))].
Example C26_example :
  map j_id (jobs_of (fst (mem_step Debug 9 (mem_run Debug mem_init three_scheduled)
     (OpPrune (mk_prune_spec Scheduled (MaxLength 1) (Only [mail])))))) = [1; 2].
Proof. vm_compute. reflexivity. Qed.

(** More than [n] remain; and jobs go although there were only [n]. *)
Theorem C26_length_pruning_refuted :
  (exists h m now ps n m', reached Debug h m /\ ps_by ps = MaxLength n
     /\ mem_step Debug now m (OpPrune ps) = (m', RUnit (Ok tt))
     /\ (forall j, In j (jobs_of m') -> in_scope ps j)
     /\ n < Z.of_nat (length (jobs_of m')))
  /\ (exists h m now ps n m', reached Debug h m /\ ps_by ps = MaxLength n
     /\ mem_step Debug now m (OpPrune ps) = (m', RUnit (Ok tt))
     /\ Z.of_nat (length (jobs_of m)) = n /\ 0 < n /\ jobs_of m' = []).
Proof.
  split.
  - exists three_scheduled. eexists. exists 9, (mk_prune_spec Scheduled (MaxLength 1) (Except [])), 1. eexists.
    split; [split; [vm_compute; reflexivity | vm_compute; discriminate]|]. split; [reflexivity|].
    split; [vm_compute; reflexivity|]. split; [|reflexivity].
    intros j Hj. list_in Hj. destruct Hj as [<-|[<-|[]]]; vm_compute; auto.
  - exists three_scheduled. eexists. exists 9, (mk_prune_spec Scheduled (MaxLength 3) (Except [])), 3. eexists.
    split; [split; [vm_compute; reflexivity | vm_compute; discriminate]|]. split; [reflexivity|].
    split; [vm_compute; reflexivity|]. vm_compute. auto.
Qed.
Print Assumptions C26_length_pruning_refuted.

(** * C27 Pruning never touches jobs outside its specification *)

Theorem C27_prune_scope : forall p now m ps m' r,
  mem_step p now m (OpPrune ps) = (m', r) -> retained (in_scope ps) (jobs_of m) (jobs_of m').
Proof. exact prune_scope_lemma. Qed.
Print Assumptions C27_prune_scope.

Example C27_example :
  map j_id (jobs_of (fst (mem_step Debug 1000 m_sample
     (OpPrune (mk_prune_spec Complete (MaxAge 0) (Only [push])))))) = [0; 1; 2]
  /\ map j_id (jobs_of (fst (mem_step Debug 1000 m_sample
     (OpPrune (mk_prune_spec Complete (MaxAge 0) (Except [push])))))) = [1; 2].
Proof. vm_compute. auto. Qed.

(** * C31 Paused mode *)

Theorem C31_paused_silent : forall p now m o,
  m_paused m = true ->
  let m' := fst (mem_step p now m o) in
  m_paused m' = true
  /\ match o with
     | OpNotifyAll =>
         Forall2 (fun b a => fst a = fst b /\ snd a = snd b ++ [now]) (inboxes m) (inboxes m')
     | OpSubscribe ex => inboxes m' = inboxes m ++ [(ex, [])]
     | _ => inboxes m' = inboxes m
     end.
Proof. exact mem_step_paused. Qed.
Print Assumptions C31_paused_silent.

(** Pausing changes neither the jobs nor any result of any later history. *)
Theorem C31_pausing_keeps_jobs : forall p now m h,
  let m' := fst (mem_step p now m OpPause) in
  m_paused m' = true
  /\ jobs_of (mem_run p m' h) = jobs_of (mem_run p m h)
  /\ mem_trace p m' h = mem_trace p m h.
Proof.
  intros p now m h. cbn zeta. split; [reflexivity|].
  destruct (mem_run_same p h (fst (mem_step p now m OpPause)) m) as [[H1 _] H2];
    [repeat split|]. unfold jobs_of. rewrite H1. auto.
Qed.
Print Assumptions C31_pausing_keeps_jobs.

Example C31_example :
  let m := fst (mem_step Debug 10 m_sample OpPause) in
  m_paused m = true
  /\ inboxes (fst (mem_step Debug 11 m (OpEnqueue (req mail 0 0)))) = [(mail, [5; 3; 6; 2000])]
  /\ inboxes (fst (mem_step Debug 12 m OpNotifyAll)) = [(mail, [5; 3; 6; 2000; 12])].
Proof. vm_compute. auto. Qed.

(** * C32 Every due job is eventually handed out *)

Theorem C32_turn_comes : forall p h1 m pre j post h2,
  reached p h1 m -> jobs_of m = pre ++ j :: post -> waiting j ->
  Z.of_nat (length h1) + Z.of_nat (length h2) < 2147418111 ->
  (forall now o, In (now, o) (h1 ++ h2) -> age_fits now o /\ counters_fit o) ->
  (forall now o, In (now, o) h2 ->
     lets_by j now o /\ j_scheduled_at j - now < 100 * 1000 * 1000) ->
  (ahead pre j post < length (filter (asks (j_executor j)) h2))%nat ->
  exists ev, In ev (mem_trace p m h2) /\ hands_out (j_id j) ev = true.
Proof.
  intros p h1 m pre j post h2 [-> _] Hjobs Hw Hlen Hall1 Hall2 Hc.
  destruct (run_unpoisoned p h1 mem_init 0 65535 id_inv_init eq_refl) as [Hp [Hb [n [Hi Hn]]]];
    try lia; [intros k [] | intros t o Ho; apply Hall1, in_or_app; auto |].
  unfold jobs_of in Hjobs. set (m := mem_run p mem_init h1) in *.
  assert (Hsplit : exists kpre kj kpost, m_jobs m = kpre ++ kj :: kpost
     /\ map kj_job kpre = pre /\ kj_job kj = j /\ map kj_job kpost = post).
  { revert Hjobs. generalize (m_jobs m) as l. clear. induction pre as [|x pre IH]; intros [|k l] H; cbn in H; try discriminate.
    - injection H as <- <-. exists [], k, l. auto.
    - injection H as <- H. destruct (IH _ H) as [a [kj [b [-> [<- [<- <-]]]]]]. exists (k :: a), kj, b. auto. }
  destruct Hsplit as [kpre [kj [kpost [Hl [<- [<- <-]]]]]].
  apply (line_run p h2 m n (65535 + Z.of_nat (length h1)) kj kpre kpost Hi Hp Hb); auto; try lia.
  intros t o Ho. destruct (Hall1 t o ltac:(apply in_or_app; auto)) as [A1 A2].
  destruct (Hall2 t o Ho). auto.
Qed.
Print Assumptions C32_turn_comes.

Example C32_example :
  let h1 := three_scheduled in
  let j := new_job 2 1 (req mail 0 6) in
  jobs_of (mem_run Debug mem_init h1) = [new_job 1 0 (req mail 0 5)] ++ j :: [new_job 3 2 (req mail 0 7)]
  /\ ahead [new_job 1 0 (req mail 0 5)] j [new_job 3 2 (req mail 0 7)] = 1%nat
  /\ (forall now o, In (now, o) [(10, OpLoad mail); (11, OpEnqueue (req mail 0 8)); (12, OpLoad mail)] ->
        lets_by j now o /\ j_scheduled_at j - now < 100 * 1000 * 1000)
  /\ length (filter (asks mail) [(10, OpLoad mail); (11, OpEnqueue (req mail 0 8)); (12, OpLoad mail)]) = 2%nat.
Proof.
  cbn zeta. split; [reflexivity|]. split; [reflexivity|]. split; [|reflexivity].
  intros now o [H|[H|[H|[]]]]; injection H as <- <-; (split; [cbn | reflexivity]); auto.
  split; [reflexivity | left; reflexivity].
Qed.

(** * C57 No operation can break the backend for others *)

(** Full property: no history breaks the backend.  Proved: no history breaks it in which prune ages
    can be added to and subtracted from the clock, counters come from the typed API and fewer than
    2^31 - 65537 operations were made.  Missing: oversized prune ages, refuted below. *)
Theorem C57_keeps_working_partial : forall p h,
  (forall now o, In (now, o) h -> age_fits now o /\ counters_fit o) ->
  Z.of_nat (length h) < 2147418111 ->
  forall now o, age_fits now o -> ~ broken_result (snd (mem_step p now (mem_run p mem_init h) o)).
Proof.
  intros p h Hall Hlen now o Hf.
  destruct (run_unpoisoned p h mem_init 0 65535 id_inv_init eq_refl) as [Hp [Hb [n [Hi Hn]]]];
    try lia; [intros k [] | exact Hall |].
  apply (mem_step_unpoisoned p now _ o (65535 + Z.of_nat (length h))); auto; [lia|].
  exact (ii_nodup _ _ Hi).
Qed.
Print Assumptions C57_keeps_working_partial.

Example C57_example : forall now o, In (now, o) h_sample -> age_fits now o /\ counters_fit o.
Proof.
  intros now o H. list_in H.
  repeat (destruct H as [H|H]; [injection H as <- <-; cbn; intuition lia|]). destruct H.
Qed.

(** One prune with the longest representable age breaks every later operation for everyone. *)
Theorem C57_keeps_working_refuted :
  exists ps, ps_by ps = MaxAge delta_max /\
  forall p h1 now h2 now' o,
    on_jobs o -> 0 <= now ->
    broken_result (snd (mem_step p now' (mem_run p mem_init (h1 ++ (now, OpPrune ps) :: h2)) o)).
Proof.
  exists (mk_prune_spec Complete (MaxAge delta_max) (Except [])). split; [reflexivity|].
  intros p h1 now h2 now' o Ho Hnow. rewrite mem_run_app. cbn [mem_run].
  set (m := mem_run p mem_init h1).
  assert (H1 : m_poisoned (fst (mem_step p now m (OpPrune (mk_prune_spec Complete (MaxAge delta_max) (Except []))))) = true).
  { cbn [mem_step]. unfold mem_prune. destruct (m_poisoned m) eqn:E; [exact E|]. cbn [ps_by].
    unfold dt_sub, dt_add.
    destruct (in_dt (now - delta_max)); [|reflexivity].
    assert (E2 : in_dt (now + delta_max) = false).
    { unfold in_dt. apply andb_false_iff. right. apply Z.leb_gt.
      assert (dt_max < delta_max) by reflexivity. lia. }
    rewrite E2. reflexivity. }
  assert (H2 : forall h m0, m_poisoned m0 = true -> m_poisoned (mem_run p m0 h) = true).
  { induction h as [|[t o'] h IH]; intros m0 H; cbn [mem_run]; [exact H|].
    apply IH. apply mem_step_poisoned. exact H. }
  apply mem_step_poisoned; auto.
Qed.
Print Assumptions C57_keeps_working_refuted.

(** * C58 Wake-ups go to the right streams *)

Theorem C58_wake_ups : forall p now m o,
  m_poisoned m = false -> m_paused m = false ->
  let (m', r) := mem_step p now m o in
  match o, r with
  | OpEnqueue _, RId (Ok id) =>
      exists j, In j (jobs_of m') /\ j_id j = id
        /\ delivered (j_executor j) (j_scheduled_at j) (inboxes m) (inboxes m')
  | (OpRetryable id _ _ | OpSnoozed id _ | OpRerun id), RUnit (Ok _) =>
      exists j, In j (jobs_of m') /\ j_id j = id
        /\ delivered (j_executor j) (j_scheduled_at j) (inboxes m) (inboxes m')
  | OpUpdate j0, RUnit (Ok _) =>
      exists j, In j (jobs_of m') /\ j_id j = j_id j0
        /\ delivered (j_executor j) (j_scheduled_at j) (inboxes m) (inboxes m')
  | OpNotifyAll, _ =>
      Forall2 (fun b a => fst a = fst b /\ snd a = snd b ++ [now]) (inboxes m) (inboxes m')
  | OpSubscribe ex, _ => inboxes m' = inboxes m ++ [(ex, [])]
  | _, _ => inboxes m' = inboxes m
  end.
Proof. exact mem_step_messages. Qed.
Print Assumptions C58_wake_ups.

Example C58_example :
  m_paused m_sample = false /\ m_poisoned m_sample = false
  /\ inboxes (fst (mem_step Debug 11 m_sample (OpSnoozed 1 70))) = [(mail, [5; 3; 6; 2000; 70])]
  /\ inboxes (fst (mem_step Debug 11 m_sample (OpSnoozed 2 70))) = [(mail, [5; 3; 6; 2000])].
Proof. vm_compute. auto. Qed.
