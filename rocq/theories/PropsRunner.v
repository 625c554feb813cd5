(** Properties of the job runner: C17, C18, C38-C42, C60. *)
From Verif Require Import Base Chrono Types TypesProofs Query ApiSpec Memory MemSpec MemHist MemHist2 MemInv Samples
  Codec Builder Runner RunnerSpec WorkerProofs SysProofs PropsApi.

(** An executor with a timeout of 2s and a constant backoff of one second, and its worker. *)
Definition mail_fns : executor_fns string Z :=
  mk_fns (fun _ => Some (Some 2000000000)) (fun _ => Some 1000000000).
Definition shown (d : Z) : string := "2s".
Definition mail_job (id attempt max : Z) : job :=
  {| j_id := id; j_status := Executing; j_executor := mail; j_data := JStr "payload"; j_metadata := JNull;
     j_attempt := attempt; j_max_attempts := max; j_priority := 0; j_tags := []; j_errors := [];
     j_inserted_at := 1; j_scheduled_at := 5; j_attempted_at := Some 6; j_completed_at := None;
     j_cancelled_at := None; j_discarded_at := None |}.
Definition odd_job : job :=
  {| j_id := 9; j_status := Executing; j_executor := mail; j_data := JNum 4; j_metadata := JNull;
     j_attempt := 1; j_max_attempts := 3; j_priority := 0; j_tags := []; j_errors := [];
     j_inserted_at := 1; j_scheduled_at := 5; j_attempted_at := Some 6; j_completed_at := None;
     j_cancelled_at := None; j_discarded_at := None |}.
Notation wrun := (worker_run text_codec mail_fns shown).
Notation wstep := (worker_step text_codec mail_fns shown).

(** * C38 Each execution result is reported once and correctly *)

(** Every report made is the right one for the outcome of the execution of the job that was taken,
    at the clock readings taken when it ended; and the four observations are all there ever is of
    that message. *)
Theorem C38_right : forall D M (c : codec D M) fns show limit es w n op,
  worker_run c fns show limit worker_start es = Some w -> In (Reported n op) (w_seen w) ->
  exists j t x o now1 now2,
    story n w = [Taken n (MJob j); Started n x; Outcome n o; Reported n op]
    /\ In (WEnd n now1 now2 o) es
    /\ typed_of_stored c j = ROk t /\ to_report fns show j t now1 now2 o op.
Proof.
  intros D M c fns show limit es w n op Hr Hi.
  pose proof (run_winv c fns show limit es w Hr) as Hw.
  assert (Hs : In (Reported n op) (story n w)) by (apply story_in; auto).
  destruct (reported_run c fns show limit es worker_start w n op Hr Hi) as [[]|[now1 [now2 [o [x [H1 [H2 [H3 H4]]]]]]]].
  specialize (H4 (winv_start c fns show)).
  assert (Ho : In (Outcome n o) (story n w)) by (apply story_in; auto).
  assert (Hx : In (Started n x) (story n w)) by (apply story_in; auto).
  assert (Hcut : cut c fns show n (story n w)).
  { eapply course_or_cut; [exact Hw|]. intro E. rewrite E in Hs. destruct Hs. }
  assert (Hfull : exists j x' o' op', begin_job c fns j = Spawned x'
    /\ story n w = [Taken n (MJob j); Started n x'; Outcome n o'; Reported n op']).
  { destruct Hcut as [ph l Hc|j x' o' Hb].
    - destruct Hc as [m|j x' Hb|j x' o' n1 n2 op' Hb Hr'|j x' o' n1 n2 op' Hb Hr'|e|j Hb]; cbn in Hs.
      + destruct Hs as [Hs|[]]; discriminate.
      + destruct Hs as [Hs|[Hs|[]]]; discriminate.
      + eauto 10.
      + eauto 10.
      + destruct Hs as [Hs|[]]; discriminate.
      + destruct Hs as [Hs|[]]; discriminate.
    - cbn in Hs. destruct Hs as [Hs|[Hs|[Hs|[]]]]; discriminate. }
  destruct Hfull as [j [x' [o' [op' [Hb Est]]]]]. rewrite Est in Hs, Ho, Hx.
  assert (op' = op) as -> by (cbn in Hs; destruct Hs as [E|[E|[E|[E|[]]]]]; congruence).
  assert (o' = o) as -> by (cbn in Ho; destruct Ho as [E|[E|[E|[E|[]]]]]; congruence).
  assert (x' = x) as -> by (cbn in Hx; destruct Hx as [E|[E|[E|[E|[]]]]]; congruence).
  destruct (begin_spawned c fns show j x Hb) as [t [Ht _]].
  exists j, t, x, o, now1, now2. split; [exact Est|]. split; [exact H1|]. split; [exact Ht|].
  eapply report_to_report; eassumption.
Qed.
Print Assumptions C38_right.

(** Every execution that ends is reported exactly once, as long as the worker lives. *)
Theorem C38_once : forall D M (c : codec D M) fns show limit es w n o,
  worker_run c fns show limit worker_start es = Some w -> In (Outcome n o) (w_seen w) ->
  w_life w <> Crashed_worker ->
  exists j x op, story n w = [Taken n (MJob j); Started n x; Outcome n o; Reported n op].
Proof.
  intros D M c fns show limit es w n o Hr Hi Hl.
  pose proof (run_winv c fns show limit es w Hr) as Hw.
  assert (Ho : In (Outcome n o) (story n w)) by (apply story_in; auto).
  assert (Hlt : (n < w_next w)%nat).
  { eapply story_lt; [exact Hw|]. intro E. rewrite E in Ho. destruct Ho. }
  pose proof Hw as [_ [_ [_ [W4 _]]]]. specialize (W4 n Hlt).
  assert (Hc : exists ph, course c fns show n ph (story n w)).
  { destruct (w_life w); [eauto|eauto|contradiction]. }
  destruct Hc as [ph Hc]. revert Ho.
  destruct Hc as [m|j x' Hb|j x' o' n1 n2 op' Hb Hr'|j x' o' n1 n2 op' Hb Hr'|e|j Hb]; cbn; intro Ho.
  - destruct Ho as [Ho|[]]; discriminate.
  - destruct Ho as [Ho|[Ho|[]]]; discriminate.
  - assert (o' = o) as -> by (destruct Ho as [E|[E|[E|[E|[]]]]]; congruence). eauto.
  - assert (o' = o) as -> by (destruct Ho as [E|[E|[E|[E|[]]]]]; congruence). eauto.
  - destruct Ho as [Ho|[]]; discriminate.
  - destruct Ho as [Ho|[]]; discriminate.
Qed.
Print Assumptions C38_once.

(** The report arrives at the backend as it was made: for the in-memory backend, the job's row is
    changed accordingly and the worker holds the job no longer. *)
Theorem C38_arrives : forall D M (c : codec D M) fns show p s i now1 now2 now o s' h x,
  sys_step c fns show p s (SReport now1 now2 now i o) = Some s' ->
  nth_error (s_held s) i = Some h -> h_exec h = Some x ->
  exists op, report show now1 now2 x o = Some op
    /\ s_mem s' = fst (mem_step p now (s_mem s) op)
    /\ s_log s' = (x_id x, o) :: s_log s
    /\ exists l1 l2, s_held s = l1 ++ h :: l2 /\ s_held s' = l1 ++ l2.
Proof.
  intros D M c fns show p s i now1 now2 now o s' h x Hs Hn Hx. cbn in Hs. rewrite Hn in Hs.
  destruct h as [hj hx]. cbn in Hx. subst hx.
  destruct (report show now1 now2 x o) as [op|]; [|discriminate]. injection Hs as <-. exists op.
  split; [reflexivity|]. split; [reflexivity|]. split; [reflexivity|].
  destruct (drop_nth_split i (s_held s) _ Hn) as [l1 [l2 [E1 E2]]]. exists l1, l2. auto.
Qed.
Print Assumptions C38_arrives.

(** A failing first attempt, a failing last attempt by timeout, a snooze and a cancellation, with
    interleaved events. *)
Definition sample_events : list worker_event :=
  [ WTake (MJob (mail_job 1 1 3)); WTake (MJob (mail_job 2 3 3)); WStart 1; WStart 0;
    WTake (MJob (mail_job 3 2 3)); WEnd 0 100 200 (OError (Some ("custom"%string, "boom"%string)));
    WEnd 1 300 300 OElapsed; WStart 2; WReported 0 (Ok tt); WEnd 2 400 401 (OSnooze 50);
    WTake (MJob (mail_job 4 1 1)); WStart 3; WReported 1 (Err (Io)); WEnd 3 500 500 (OPanic (PText "oh no") "task panicked") ].
Example C38_example :
  exists w, wrun None worker_start sample_events = Some w /\ w_life w = Working
    /\ In (Reported 0 (OpRetryable 1 1000000200 (mk_exec_error (EOther "custom") "boom"))) (w_seen w)
    /\ In (Reported 1 (OpDiscarded 2 (mk_exec_error ETimeout "Job failed to complete within timeout: 2s"))) (w_seen w)
    /\ In (Reported 2 (OpSnoozed 3 450)) (w_seen w)
    /\ In (Reported 3 (OpDiscarded 4 (mk_exec_error EPanic "oh no"))) (w_seen w).
Proof. eexists. split; [vm_compute; reflexivity|]. cbn. auto 20. Qed.

(** * C39 A bad job cannot stop the worker *)

(** Missing: jobs for which the executor's own [timeout] or [backoff] panics, counters outside
    [u16], delays that leave the range of dates, and a stream that panics (the in-memory one does
    once its lock is poisoned); see the refutations below. *)
Theorem C39_worker_survives_partial : forall D M (c : codec D M) fns show limit es w,
  worker_run c fns show limit worker_start es = Some w ->
  (forall n j, In (Taken n (MJob j)) (w_seen w) -> runnable c fns j \/ undecodable c j) ->
  (forall n now1 now2 o x, In (WEnd n now1 now2 o) es -> In (Started n x) (w_seen w) ->
     reportable x now1 now2 o) ->
  (forall n r, In (WReported n r) es -> r <> Panic) ->
  ~ In WPanic es ->
  w_life w <> Crashed_worker.
Proof.
  intros D M c fns show limit es w Hr.
  assert (G : forall es2 w0 w1, winv c fns show w0 -> w_life w0 <> Crashed_worker ->
    worker_run c fns show limit w0 es2 = Some w1 ->
    (forall n j, In (Taken n (MJob j)) (w_seen w1) -> runnable c fns j \/ undecodable c j) ->
    (forall n now1 now2 o x, In (WEnd n now1 now2 o) es2 -> In (Started n x) (w_seen w1) -> reportable x now1 now2 o) ->
    (forall n r, In (WReported n r) es2 -> r <> Panic) -> ~ In WPanic es2 -> w_life w1 <> Crashed_worker).
  { induction es2 as [|e es2 IH]; intros w0 w1 Hw Hl Hr2 H1 H2 H3 H4; cbn in Hr2; [injection Hr2 as <-; exact Hl|].
    destruct (worker_step c fns show limit w0 e) as [w2|] eqn:E; [|discriminate].
    eapply (IH w2 w1); [eapply winv_step; eassumption | | exact Hr2 | exact H1 | | | ].
    - intro Hc.
      assert (Hl0 : w_life w0 = Working).
      { destruct (w_life w0) eqn:E0; [reflexivity| |contradiction]. rewrite dead_end in E by congruence. discriminate. }
      pose proof Hw as [_ [W2 [_ [W4 _]]]]. rewrite Hl0 in W4.
      destruct (crash_step c fns show limit w0 e w2 Hw E Hl0 Hc)
        as [[n [j [-> [Hf Hd]]]]|[[n [now1 [now2 [o [x [-> [Hf [Hn Hel]]]]]]]]|[[n ->]| ->]]].
      + pose proof (W4 n (W2 n (flight_in _ _ _ Hf))) as Hco. rewrite Hf in Hco.
        inversion Hco as [m Hm Hst| | | | |]; subst.
        assert (Hin : In (Taken n (MJob j)) (w_seen w0)).
        { assert (In (Taken n (MJob j)) (story n w0)) as Hi by (rewrite <- Hst; left; reflexivity).
          apply story_in in Hi. tauto. }
        assert (Hin1 : In (Taken n (MJob j)) (w_seen w1)).
        { eapply seen_run; [exact Hr2|]. eapply seen_grows; eassumption. }
        destruct (H1 n j Hin1) as [Hru|Hun].
        * apply begin_runnable in Hru; [|exact show]. destruct Hru as [x Hx]. congruence.
        * apply (begin_logged c fns) in Hun. congruence.
      + pose proof (W4 n (W2 n (flight_in _ _ _ Hf))) as Hco. rewrite Hf in Hco.
        inversion Hco as [ |j x0 Hb Hx Hst| | | |]; subst.
        assert (Hin : In (Started n x) (w_seen w0)).
        { assert (In (Started n x) (story n w0)) as Hi by (rewrite <- Hst; right; left; reflexivity).
          apply story_in in Hi. tauto. }
        assert (Hin1 : In (Started n x) (w_seen w1)).
        { eapply seen_run; [exact Hr2|]. eapply seen_grows; eassumption. }
        destruct (reportable_some show x now1 now2 o) as [op Hop]; [|exact Hel|congruence].
        apply (H2 n now1 now2 o x); [left; reflexivity | exact Hin1].
      + apply (H3 n Panic (or_introl eq_refl) eq_refl).
      + apply H4. left. reflexivity.
    - intros n now1 now2 o x Hi. apply H2. right. exact Hi.
    - intros n r Hi. apply (H3 n). right. exact Hi.
    - intro Hi. apply H4. right. exact Hi. }
  intros H1 H2 H3 H4. apply (G es worker_start w (winv_start c fns show)); auto. discriminate.
Qed.
Print Assumptions C39_worker_survives_partial.

(** Whatever happens to one message short of a crash, the others are where they were. *)
Theorem C39_others_unaffected : forall D M (c : codec D M) fns show limit es w e n k w',
  worker_run c fns show limit worker_start es = Some w ->
  worker_step c fns show limit w e = Some w' ->
  (e = WStart n \/ (exists now1 now2 o, e = WEnd n now1 now2 o) \/ (exists r, e = WReported n r)) ->
  k <> n -> w_life w' <> Crashed_worker ->
  flight_of k (w_flights w') = flight_of k (w_flights w) /\ story k w' = story k w.
Proof.
  intros D M c fns show limit es w e n k w' Hr Hs He Hk Hl.
  eapply isolated; [eapply run_winv; exact Hr | exact Hs | | exact Hk | exact Hl].
  destruct He as [->|[[n1 [n2 [o ->]]]|[r ->]]]; reflexivity.
Qed.
Print Assumptions C39_others_unaffected.

Example C39_example :
  exists w, wrun None worker_start sample_events = Some w
    /\ (forall n j, In (Taken n (MJob j)) (w_seen w) -> runnable text_codec mail_fns j \/ undecodable text_codec j)
    /\ (forall n now1 now2 o x, In (WEnd n now1 now2 o) sample_events -> In (Started n x) (w_seen w) ->
          reportable x now1 now2 o)
    /\ (forall n r, In (WReported n r) sample_events -> r <> Panic)
    /\ ~ In WPanic sample_events.
Proof.
  eexists. split; [vm_compute; reflexivity|]. split; [|split; [|split]].
  - intros n j H. cbn in H. left.
    repeat (destruct H as [H|H]; [first [discriminate H | injection H as <- <-; do 3 eexists; (split; [reflexivity|split; reflexivity])]|]).
    destruct H.
  - intros n now1 now2 o x H Hx. unfold sample_events in H. cbn in H, Hx.
    assert (E : x_final x = false -> x_delay x = 1000000000).
    { repeat (destruct Hx as [Hx|Hx]; [first [discriminate Hx | injection Hx as _ <-; reflexivity]|]). destruct Hx. }
    repeat (destruct H as [H|H]; [first [discriminate H | injection H as <- <- <- <-; cbn; unfold dt_min, dt_max, ns_per_s;
      first [lia | split; [discriminate | intro F; rewrite (E F); lia]]]|]).
    destruct H.
  - intros n r H. unfold sample_events in H. cbn in H.
    repeat (destruct H as [H|H]; [try discriminate; injection H as <- <-; discriminate|]). destruct H.
  - unfold sample_events. cbn. intro H. repeat (destruct H as [H|H]; [discriminate|]). destruct H.
Qed.

(** A panic of the stream reaches a worker exactly when it may poll the stream: it has not been
    told to stop and has room for another job.  Then all its executions are lost. *)
Theorem C39_stream_panic : forall D M (c : codec D M) fns show limit w,
  w_life w = Working ->
  ((exists w', worker_step c fns show limit w WPanic = Some w')
   <-> w_transit w = None /\ w_open w = true /\ w_cancelled w = false
       /\ (limit = None \/ limit = Some 0 \/ exists l, limit = Some l /\ Z.of_nat (length (w_flights w)) < l))
  /\ (forall w', worker_step c fns show limit w WPanic = Some w' ->
        w_life w' = Crashed_worker /\ w_flights w' = [] /\ w_seen w' = w_seen w
        /\ forall e, worker_step c fns show limit w' e = None).
Proof.
  intros D M c fns show limit w Hl. unfold worker_step. rewrite Hl. split.
  - destruct (w_transit w); [split; [intros [w' H]; discriminate|intros [H _]; discriminate]|].
    unfold may_poll, below_limit.
    destruct (w_open w); cbn; [|split; [intros [w' H]; discriminate|intros [_ [H _]]; discriminate]].
    destruct (w_cancelled w); cbn; [split; [intros [w' H]; discriminate|intros [_ [_ [H _]]]; discriminate]|].
    destruct limit as [l|]; [|split; [auto 6|eauto]].
    destruct (Z.eqb_spec l 0) as [->|Hn]; cbn; [split; [auto 7|eauto]|].
    destruct (Z.ltb_spec (Z.of_nat (length (w_flights w))) l) as [Hlt|Hge]; cbn.
    + split; [intros _; do 3 (split; [reflexivity|]); eauto 6|eauto].
    + split; [intros [w' H]; discriminate|]. intros [_ [_ [_ [H|[H|[l' [H H']]]]]]]; [discriminate|congruence|].
      injection H as <-. lia.
  - intros w' H. destruct (w_transit w); [discriminate|]. destruct (may_poll limit w); [|discriminate].
    injection H as <-. cbn. auto.
Qed.
Print Assumptions C39_stream_panic.
Theorem C39_stream_panic_refuted :
  exists es w w', wrun (Some 2) worker_start es = Some w
    /\ flight_of 0 (w_flights w) = Some (FExecuting (mk_execution 1 false 1000000000 (Some 2000000000)))
    /\ wstep (Some 2) w WPanic = Some w'
    /\ w_life w' = Crashed_worker /\ w_flights w' = []
    /\ (forall e, wstep (Some 2) w' e = None).
Proof.
  exists [WTake (MJob (mail_job 1 1 3)); WStart 0]. do 2 eexists.
  split; [vm_compute; reflexivity|]. split; [reflexivity|]. split; [vm_compute; reflexivity|].
  split; [reflexivity|]. split; [reflexivity|]. intro e. reflexivity.
Qed.

(** A job whose number of attempts is outside [u16] kills the worker, and with it the other
    executions under way: no event is possible any more. *)
Theorem C39_counter_refuted :
  exists es w w', wrun None worker_start es = Some w
    /\ flight_of 0 (w_flights w) = Some (FExecuting (mk_execution 1 false 1000000000 (Some 2000000000)))
    /\ wstep None w (WStart 1) = Some w'
    /\ w_life w' = Crashed_worker /\ w_flights w' = []
    /\ (forall e, wstep None w' e = None).
Proof.
  exists [WTake (MJob (mail_job 1 1 3)); WStart 0; WTake (MJob (mail_job 2 1 65536))]. do 2 eexists.
  split; [vm_compute; reflexivity|]. split; [reflexivity|]. split; [vm_compute; reflexivity|].
  split; [reflexivity|]. split; [reflexivity|]. intro e. reflexivity.
Qed.
(** Such a job comes from a request for 65535 attempts that is rerun once. *)
Theorem C39_counter_reachable_refuted :
  let e := {| eq_executor := mail; eq_data := JStr "payload"; eq_metadata := JNull; eq_max_attempts := 65535;
              eq_scheduled_at := 5; eq_tags := []; eq_priority := 0; eq_criteria := None |} in
  exists m j, mem_step Release 9 (mem_run Release mem_init
      [(1, OpEnqueue e); (6, OpLoad mail); (7, OpComplete 0); (8, OpRerun 0)]) (OpLoad mail) = (m, RJob (Ok (Some j)))
    /\ j_max_attempts j = 65536 /\ begin_job text_codec mail_fns j = Died.
Proof. do 2 eexists. split; [vm_compute; reflexivity|]. split; reflexivity. Qed.
(** So does an execution that asks to be snoozed beyond the range of dates. *)
Theorem C39_snooze_refuted :
  exists es w w', wrun None worker_start es = Some w
    /\ flight_of 1 (w_flights w) = Some (FExecuting (mk_execution 2 false 1000000000 (Some 2000000000)))
    /\ wstep None w (WEnd 0 100 100 (OSnooze (9223372036854775807 * 1000000))) = Some w'
    /\ w_life w' = Crashed_worker /\ w_flights w' = []
    /\ (forall e, wstep None w' e = None).
Proof.
  exists [WTake (MJob (mail_job 1 1 3)); WStart 0; WTake (MJob (mail_job 2 1 3)); WStart 1]. do 2 eexists.
  split; [vm_compute; reflexivity|]. split; [reflexivity|]. split; [vm_compute; reflexivity|].
  split; [reflexivity|]. split; [reflexivity|]. intro e. reflexivity.
Qed.
Print Assumptions C39_snooze_refuted.

(** * C40 Every handed-out job is resolved *)

(** A job that decodes is reported or can still be: whatever its execution comes to, events about
    this message alone lead to its report.  Missing: jobs that do not decode. *)
Theorem C40_resolved_partial : forall D M (c : codec D M) fns show limit es w n j,
  worker_run c fns show limit worker_start es = Some w -> w_life w <> Crashed_worker ->
  In (Taken n (MJob j)) (w_seen w) -> runnable c fns j ->
  (exists op, In (Reported n op) (w_seen w))
  \/ (w_life w = Working /\
      forall x now1 now2 o, begin_job c fns j = Spawned x -> reportable x now1 now2 o ->
        (o = OElapsed -> x_timeout x <> None) ->
        exists es' w' op, (es' = [WStart n; WEnd n now1 now2 o] \/ es' = [WEnd n now1 now2 o])
          /\ worker_run c fns show limit w es' = Some w' /\ In (Reported n op) (w_seen w')).
Proof.
  intros D M c fns show limit es w n j Hr Hl Hi Hru.
  pose proof (run_winv c fns show limit es w Hr) as Hw.
  assert (Ho : In (Taken n (MJob j)) (story n w)) by (apply story_in; auto).
  assert (Hlt : (n < w_next w)%nat).
  { eapply story_lt; [exact Hw|]. intro E. rewrite E in Ho. destruct Ho. }
  apply (begin_runnable c fns show) in Hru. destruct Hru as [x0 Hx0].
  pose proof Hw as [_ [_ [_ [W4 [W5 _]]]]]. specialize (W4 n Hlt).
  assert (Hc : course c fns show n (flight_of n (w_flights w)) (story n w)).
  { destruct (w_life w); [exact W4|exact W4|contradiction]. }
  clear W4. remember (flight_of n (w_flights w)) as ph eqn:Eph. symmetry in Eph.
  assert (Hwk : ph <> None -> w_life w = Working).
  { intro Hn. destruct (w_life w) eqn:E; [reflexivity| |contradiction]. rewrite (W5 eq_refl) in Eph. cbn in Eph. congruence. }
  assert (Hend : forall x w0 now1 now2 o, w_life w0 = Working ->
     flight_of n (w_flights w0) = Some (FExecuting x) -> reportable x now1 now2 o ->
     (o = OElapsed -> x_timeout x <> None) ->
     exists w' op, worker_step c fns show limit w0 (WEnd n now1 now2 o) = Some w' /\ In (Reported n op) (w_seen w')).
  { intros x w0 now1 now2 o Hl0 Hf0 Hrep Hel. destruct (reportable_some show x now1 now2 o Hrep Hel) as [op Hop].
    eexists. exists op. split.
    - unfold worker_step. rewrite Hl0, Hf0, Hop. destruct o; try reflexivity.
      destruct (x_timeout x); [reflexivity|]. destruct (Hel eq_refl eq_refl).
    - cbn. auto. }
  assert (Hrep : forall op, In (Reported n op) (story n w) -> In (Reported n op) (w_seen w)).
  { intros op H. apply story_in in H. tauto. }
  destruct Hc as [m|j' x' Hb|j' x' o' n1 n2 op' Hb Hr'|j' x' o' n1 n2 op' Hb Hr'|e|j' Hb].
  - right. assert (Hlw : w_life w = Working) by (apply Hwk; discriminate). split; [exact Hlw|].
    assert (m = MJob j) as -> by (destruct Ho as [E|[]]; congruence).
    intros x now1 now2 o Hx Hre Hel.
    destruct (Hend x (progress n (Some (FExecuting x)) [Started n x] w) now1 now2 o) as [w' [op [Hs Hi']]]; auto.
    { cbn [progress w_flights]. pose proof Hw as [W1 _]. rewrite flight_of_set, Nat.eqb_refl; auto.
      eapply flight_in; exact Eph. }
    exists [WStart n; WEnd n now1 now2 o], w', op. split; [left; reflexivity|]. split; [|exact Hi'].
    cbn [worker_run]. unfold worker_step at 1. rewrite Hlw, Eph, Hx. rewrite Hs. reflexivity.
  - right. assert (Hlw : w_life w = Working) by (apply Hwk; discriminate). split; [exact Hlw|].
    assert (j' = j) as -> by (destruct Ho as [E|[E|[]]]; congruence).
    intros x now1 now2 o Hx Hre Hel. assert (x' = x) as -> by congruence.
    destruct (Hend x w now1 now2 o) as [w' [op [Hs Hi']]]; auto.
    exists [WEnd n now1 now2 o], w', op. split; [right; reflexivity|]. split; [|exact Hi'].
    cbn [worker_run]. rewrite Hs. reflexivity.
  - left. exists op'. apply Hrep. cbn. auto.
  - left. exists op'. apply Hrep. cbn. auto.
  - cbn in Ho. destruct Ho as [E|[]]; discriminate.
  - assert (j' = j) as -> by (destruct Ho as [E|[]]; congruence). congruence.
Qed.
Print Assumptions C40_resolved_partial.

Example C40_example :
  exists w, wrun None worker_start sample_events = Some w /\ In (Taken 2 (MJob (mail_job 3 2 3))) (w_seen w)
    /\ runnable text_codec mail_fns (mail_job 3 2 3).
Proof.
  eexists. split; [vm_compute; reflexivity|]. split; [cbn; auto 20|].
  do 3 eexists. split; [reflexivity|]. split; reflexivity.
Qed.

(** A job that a live worker took and whose data or metadata do not decode is never executed and
    never reported; starting on it leaves the worker as it was but for the message. *)
Theorem C40_unreadable : forall D M (c : codec D M) fns show limit es w n j,
  worker_run c fns show limit worker_start es = Some w ->
  In (Taken n (MJob j)) (w_seen w) -> unreadable c j ->
  (forall o, In o (w_seen w) -> obs_number o = n -> o = Taken n (MJob j))
  /\ (forall w', worker_step c fns show limit w (WStart n) = Some w' ->
       w_life w' = w_life w /\ w_seen w' = w_seen w /\ flight_of n (w_flights w') = None
       /\ (forall k, k <> n -> flight_of k (w_flights w') = flight_of k (w_flights w))).
Proof.
  intros D M c fns show limit es w n j Hr Hi Hu.
  pose proof (run_winv c fns show limit es w Hr) as Hw.
  assert (Ht : typed_of_stored c j = RErr EncodeError) by (apply C48_conversion_outcome; exact Hu).
  assert (Hb : begin_job c fns j = Logged) by (unfold begin_job; rewrite Ht; reflexivity).
  assert (Ho : In (Taken n (MJob j)) (story n w)) by (apply story_in; auto).
  assert (Hlt : (n < w_next w)%nat).
  { eapply story_lt; [exact Hw|]. intro E. rewrite E in Ho. destruct Ho. }
  pose proof Hw as [W1 [_ [_ [W4 _]]]]. specialize (W4 n Hlt).
  assert (Hc : forall ph l, course c fns show n ph l -> In (Taken n (MJob j)) l -> l = [Taken n (MJob j)]).
  { intros ph l Hc Hin. destruct Hc; cbn in Hin;
      repeat match goal with H : _ \/ _ |- _ => destruct H | H : False |- _ => destruct H end; congruence. }
  assert (Hst : story n w = [Taken n (MJob j)]).
  { destruct (w_life w); try exact (Hc _ _ W4 Ho). destruct W4 as [ph l W4|j' x' o' Hb']; [exact (Hc _ _ W4 Ho)|].
    cbn in Ho. destruct Ho as [E|[E|[E|[]]]]; congruence. }
  split.
  - intros o Hin Hn. assert (H : In o (story n w)) by (apply story_in; auto).
    rewrite Hst in H. destruct H as [<-|[]]. reflexivity.
  - intros w' Hs. unfold worker_step in Hs. destruct (w_life w) eqn:El; try discriminate.
    assert (Hfl : flight_of n (w_flights w) = Some (FNew (MJob j))).
    { destruct (flight_of n (w_flights w)) as [[m|x|op]|] eqn:Ef; try discriminate.
      rewrite Hst in W4. inversion W4; subst. reflexivity. }
    rewrite Hfl, Hb in Hs. injection Hs as <-. cbn. split; [exact El|]. split; [reflexivity|].
    rewrite flight_of_set, Nat.eqb_refl by (auto; eapply flight_in; exact Hfl). split; [reflexivity|].
    intros k Hk. rewrite flight_of_set by (auto; eapply flight_in; exact Hfl).
    destruct (Nat.eqb_spec n k); [congruence|reflexivity].
Qed.
Print Assumptions C40_unreadable.

Example C40_unreadable_example :
  unreadable text_codec unread_job /\
  exists w w', wrun None worker_start [WTake (MJob unread_job); WTake (MJob (mail_job 3 2 3)); WStart 1] = Some w
    /\ In (Taken 0 (MJob unread_job)) (w_seen w) /\ wstep None w (WStart 0) = Some w'.
Proof.
  split; [right; split; [discriminate|reflexivity]|]. do 2 eexists. split; [vm_compute; reflexivity|].
  split; [cbn; auto|vm_compute; reflexivity].
Qed.

(** An undecodable job gets no report, ever: the worker is done with it and goes on without it. *)
Theorem C40_no_report_refuted :
  undecodable text_codec odd_job /\
  exists w, wrun None worker_start [WTake (MJob odd_job); WStart 0] = Some w /\ w_life w = Working /\
    forall es' w', wrun None w es' = Some w' -> forall op, ~ In (Reported 0 op) (w_seen w').
Proof.
  split; [exists EncodeError; reflexivity|]. eexists. split; [vm_compute; reflexivity|]. split; [reflexivity|].
  intros es' w' Hr op Hi.
  assert (Hr2 : wrun None worker_start ([WTake (MJob odd_job); WStart 0] ++ es') = Some w') by (rewrite run_app; exact Hr).
  destruct (C38_right _ _ _ _ _ _ _ _ _ _ Hr2 Hi) as [j [t [x [o [n1 [n2 [Est [_ [Ht _]]]]]]]]].
  assert (Hin : In (Taken 0 (MJob odd_job)) (story 0 w')).
  { apply story_in. split; [|reflexivity]. eapply seen_run; [exact Hr|]. cbn. auto. }
  rewrite Est in Hin. cbn in Hin.
  assert (j = odd_job) as -> by (destruct Hin as [E|[E|[E|[E|[]]]]]; congruence). discriminate.
Qed.
Print Assumptions C40_no_report_refuted.

(** In the store such a job stays executing in every later state of every orderly history. *)
Theorem C40_stays_executing_refuted : forall D M (c : codec D M) fns show p es1 s1 h es2 s2,
  orderly_run c fns show p sys_init es1 s1 -> In h (s_held s1) -> h_exec h = None ->
  orderly_run c fns show p s1 es2 s2 -> requests (es1 ++ es2) <= 4294967296 ->
  exists j, In j (jobs_of (s_mem s2)) /\ j_id j = j_id (h_job h) /\ j_status j = Executing.
Proof.
  intros D M c fns show p es1 s1 h es2 s2 H1 Hh Hx H2 Hr.
  assert (Hkeep : forall s es s', orderly_run c fns show p s es s' -> In h (s_held s) -> In h (s_held s')).
  { clear -Hx. intros s es s' H. induction H as [s|s ev s0 es s' Ho Hs H IH]; intro Hi; [exact Hi|]. apply IH.
    destruct ev as [now o|now ex|n1 n2 now i o]; cbn in Hs.
    - injection Hs as <-. exact Hi.
    - destruct (mem_load p now (s_mem s) ex) as [m' [[j|]|er|]]; injection Hs as <-; cbn; auto. apply in_or_app. auto.
    - destruct (nth_error (s_held s) i) as [[hj [x|]]|] eqn:En; try discriminate.
      destruct (report show n1 n2 x o); [|discriminate]. injection Hs as <-. cbn.
      destruct (drop_nth_split i (s_held s) _ En) as [l1 [l2 [E1 E2]]]. rewrite E2.
      rewrite E1 in Hi. apply in_app_or in Hi. apply in_or_app. destruct Hi as [Hi|[<-|Hi]]; [auto|discriminate|auto]. }
  pose proof (run_sinv c fns show p es1 s1 H1) as I1.
  assert (Hr1 : requests es1 <= 4294967296).
  { rewrite requests_app in Hr; auto. assert (0 <= requests es2) by (unfold requests; lia). lia. }
  pose proof (sinv_run c fns show p es2 es1 s1 s2 H1 (I1 Hr1) H2 Hr) as I.
  destruct (si_held _ _ _ _ _ _ I h (Hkeep _ _ _ H2 Hh)) as [k [Hk [F1 [F2 _]]]].
  exists (kj_job k). split; [unfold jobs_of; apply in_map; exact Hk|]. split; [exact F1|exact F2].
Qed.
Print Assumptions C40_stays_executing_refuted.

(** * C41 Concurrency limit *)

Theorem C41_limit : forall D M (c : codec D M) fns show n es w,
  1 <= n -> worker_run c fns show (Some n) worker_start es = Some w -> Z.of_nat (in_progress w) <= n.
Proof.
  intros D M c fns show n es w Hn Hr. eapply limit_run; [reflexivity | exact Hn | | exact Hr]. cbn. lia.
Qed.
Print Assumptions C41_limit.

(** A live worker that has not been told to stop takes the next job exactly when fewer than [n]
    messages are in progress; without a limit (or with zero, which means the same) always. *)
Theorem C41_takes : forall D M (c : codec D M) fns show limit w m,
  w_life w = Working -> w_open w = true -> w_cancelled w = false -> w_transit w = None ->
  (exists w', worker_step c fns show limit w (WTake m) = Some w' /\ in_progress w' = S (in_progress w))
  <-> (limit = None \/ limit = Some 0 \/ exists n, limit = Some n /\ Z.of_nat (in_progress w) < n).
Proof.
  intros D M c fns show limit w m Hl Ho Hc Ht. unfold worker_step, may_poll, in_progress. rewrite Hl, Ho, Hc, Ht. cbn [negb andb].
  split.
  - intros [w' [Hs _]]. unfold below_limit in Hs. destruct limit as [l|]; [|auto].
    destruct (Z.eqb_spec l 0) as [->|]; [auto|]. cbn [orb] in Hs.
    destruct (Z.ltb_spec (Z.of_nat (length (w_flights w))) l); [eauto|discriminate].
  - intro H. assert (Hb : below_limit limit (length (w_flights w)) = true).
    { unfold below_limit. destruct H as [->|[->|[n [-> H]]]]; [reflexivity|reflexivity|].
      destruct (n =? 0); [reflexivity|]. cbn [orb]. apply Z.ltb_lt. exact H. }
    rewrite Hb. eexists. split; [reflexivity|]. cbn. rewrite app_length. cbn. lia.
Qed.
Print Assumptions C41_takes.

(** An executor that sets only its name has no limit. *)
Theorem C41_default : forall D M (c : codec D M) fns show name w m,
  w_life w = Working -> w_open w = true -> w_cancelled w = false -> w_transit w = None ->
  exists w', worker_step c fns show (ex_max_concurrency (exec_defaults name)) w (WTake m) = Some w'
    /\ in_progress w' = S (in_progress w).
Proof. intros D M c fns show name w m H1 H2 H3 H4. apply C41_takes; auto. Qed.
Print Assumptions C41_default.

Example C41_example :
  exists w, wrun (Some 2) worker_start [WTake (MJob (mail_job 1 1 3)); WStart 0; WTake (MJob (mail_job 2 1 3))] = Some w
    /\ in_progress w = 2%nat /\ wstep (Some 2) w (WTake (MJob odd_job)) = None
    /\ w_life w = Working /\ w_open w = true /\ w_cancelled w = false /\ w_transit w = None.
Proof. eexists. split; [vm_compute; reflexivity|]. repeat split; reflexivity. Qed.

(** * C42 Graceful shutdown *)

Theorem C42_takes_no_more : forall D M (c : codec D M) fns show limit w1 w2 es w3 n m,
  worker_step c fns show limit w1 WCancel = Some w2 -> worker_run c fns show limit w2 es = Some w3 ->
  In (Taken n m) (w_seen w3) -> In (Taken n m) (w_seen w1).
Proof.
  intros D M c fns show limit w1 w2 es w3 n m Hs Hr Hi.
  unfold worker_step in Hs. destruct (w_life w1); try discriminate. injection Hs as <-.
  match type of Hr with worker_run _ _ _ _ ?w0 _ = _ => assert (Hc0 : w_cancelled w0 = true) by reflexivity end.
  destruct (cancelled_run c fns show limit es _ w3 Hc0 Hr) as [_ Ht].
  assert (H : In (Taken n m) (taken_in w3)) by (unfold taken_in; apply filter_In; auto).
  rewrite Ht in H. unfold taken_in in H. apply filter_In in H. cbn in H. tauto.
Qed.
Print Assumptions C42_takes_no_more.

(** When the worker has stopped, every decodable job it took has been run to its end and reported. *)
Theorem C42_all_reported : forall D M (c : codec D M) fns show limit es w n j,
  worker_run c fns show limit worker_start es = Some w -> w_life w = Ended ->
  In (Taken n (MJob j)) (w_seen w) -> runnable c fns j ->
  exists x o op, story n w = [Taken n (MJob j); Started n x; Outcome n o; Reported n op].
Proof.
  intros D M c fns show limit es w n j Hr Hl Hi Hru.
  destruct (C40_resolved_partial D M c fns show limit es w n j Hr ltac:(congruence) Hi Hru) as [[op H]|[H _]]; [|congruence].
  destruct (C38_right D M c fns show limit es w n op Hr H) as [j' [t [x [o [n1 [n2 [Est _]]]]]]].
  assert (Ho : In (Taken n (MJob j)) (story n w)) by (apply story_in; auto).
  rewrite Est in Ho. cbn in Ho.
  assert (j' = j) as -> by (destruct Ho as [E|[E|[E|[E|[]]]]]; congruence). eauto.
Qed.
Print Assumptions C42_all_reported.

(** It stops only after it noticed the shutdown, and exactly when nothing is in progress. *)
Theorem C42_stops_exactly : forall D M (c : codec D M) fns show limit es w,
  worker_run c fns show limit worker_start es = Some w -> w_life w = Working -> w_open w = false ->
  ((exists w', worker_step c fns show limit w WFinish = Some w' /\ w_life w' = Ended) <-> in_progress w = 0%nat)
  /\ In WCancel es.
Proof.
  intros D M c fns show limit es w Hr Hl Ho. split.
  - unfold worker_step, in_progress. rewrite Hl, Ho. destruct (w_flights w); cbn.
    + split; [reflexivity|]. intros _. eexists. split; reflexivity.
    + split; [intros [w' [H _]]; discriminate | discriminate].
  - assert (G : forall es w0 w1, worker_run c fns show limit w0 es = Some w1 -> w_life w1 = Working ->
      (w_open w0 = true /\ w_cancelled w0 = false) -> (w_open w1 = true /\ w_cancelled w1 = false) \/ In WCancel es).
    { clear. induction es as [|e es IH]; intros w0 w1 Hr Hl H; cbn in Hr; [injection Hr as <-; auto|].
      destruct (worker_step c fns show limit w0 e) as [w2|] eqn:E; [|discriminate].
      destruct e; try (right; left; reflexivity);
        (destruct (IH w2 w1 Hr Hl) as [H2|H2]; [|auto|auto using in_cons]);
        unfold worker_step in E; destruct (w_life w0) eqn:El; try discriminate; destruct H as [H1 H2].
      - destruct (w_transit w0); [discriminate|]. destruct (may_poll limit w0); [|discriminate]. injection E as <-. auto.
      - destruct (w_transit w0); [discriminate|]. destruct (may_poll limit w0); [|discriminate]. injection E as <-. auto.
      - destruct (w_transit w0); [|discriminate]. destruct (may_poll limit w0); [|discriminate]. injection E as <-. auto.
      - exfalso. destruct (w_transit w0); [discriminate|]. destruct (may_poll limit w0); [|discriminate].
        injection E as <-. destruct es; cbn in Hr; [injection Hr as <-; discriminate|]. discriminate.
      - rewrite H2, Bool.andb_false_r in E. discriminate.
      - destruct (flight_of n (w_flights w0)) as [[[j|er]|x|op]|]; try discriminate.
        + destruct (begin_job c fns j); injection E as <-; auto. exfalso.
          destruct es; cbn in Hr; [injection Hr as <-; discriminate|]. discriminate.
        + injection E as <-. auto.
      - destruct (flight_of n (w_flights w0)) as [[m|x|op]|]; try discriminate.
        assert (E' : match report show now1 now2 x o with
              | Some op => Some (progress n (Some (FReporting op)) [Reported n op]
                              (progress n (Some (FExecuting x)) [Outcome n o] w0))
              | None => Some (crash (progress n (Some (FExecuting x)) [Outcome n o] w0))
              end = Some w2).
        { destruct o; try exact E. destruct (x_timeout x); [exact E|discriminate]. }
        destruct (report show now1 now2 x o); injection E' as <-; auto. exfalso.
        destruct es; cbn in Hr; [injection Hr as <-; discriminate|]. discriminate.
      - destruct (flight_of n (w_flights w0)) as [[m|x|op]|]; try discriminate.
        destruct r; injection E as <-; auto. exfalso.
        destruct es; cbn in Hr; [injection Hr as <-; discriminate|]. discriminate.
      - rewrite H1 in E. discriminate. }
    destruct (G es worker_start w Hr Hl) as [[H _]|H]; [split; reflexivity | congruence | exact H].
Qed.
Print Assumptions C42_stops_exactly.

(** From every state with the token cancelled the worker can finish what it has and stop. *)
Theorem C42_can_stop : forall D M (c : codec D M) fns show limit es w,
  worker_run c fns show limit worker_start es = Some w -> w_life w = Working -> w_cancelled w = true ->
  (forall l, limit = Some l -> 0 <= l) ->
  (forall n j, In (n, FNew (MJob j)) (w_flights w) -> runnable c fns j \/ undecodable c j) ->
  exists es' w', worker_run c fns show limit w es' = Some w' /\ w_life w' = Ended.
Proof.
  intros D M c fns show limit es w Hr Hl Hc Hlim Hj.
  pose proof (run_winv c fns show limit es w Hr) as Hw.
  destruct (finish_all c fns show limit (w_flights w) w Hw Hl eq_refl Hj) as [es1 [w1 [H1 [H2 [H3 [H4 H5]]]]]].
  destruct (w_open w1) eqn:Eo.
  - exists (es1 ++ [WClose; WFinish]). eexists. rewrite run_app, H1. split.
    + cbn [worker_run]. unfold worker_step at 1. rewrite H2, Eo, H3, Hc, H5. cbn [length andb].
      assert (Hb : below_limit limit 0 = true).
      { unfold below_limit. destruct limit as [l|]; [|reflexivity]. specialize (Hlim l eq_refl).
        destruct (Z.eqb_spec l 0); [reflexivity|]. cbn [orb]. apply Z.ltb_lt. cbn. lia. }
      rewrite Hb. unfold worker_step. cbn [w_life w_open w_flights]. reflexivity.
    + reflexivity.
  - exists (es1 ++ [WFinish]). eexists. rewrite run_app, H1. split.
    + cbn [worker_run]. unfold worker_step. rewrite H2, Eo, H5. reflexivity.
    + reflexivity.
Qed.
Print Assumptions C42_can_stop.

Definition shutdown_events : list worker_event :=
  [ WTake (MJob (mail_job 1 1 3)); WTake (MJob odd_job); WStart 0; WCancel; WClose; WStart 1;
    WEnd 0 100 200 ODone; WReported 0 (Ok tt); WFinish ].
Example C42_example :
  exists w, wrun (Some 3) worker_start shutdown_events = Some w /\ w_life w = Ended
    /\ In (Taken 0 (MJob (mail_job 1 1 3))) (w_seen w) /\ runnable text_codec mail_fns (mail_job 1 1 3).
Proof.
  eexists. split; [vm_compute; reflexivity|]. split; [reflexivity|]. split; [cbn; auto 10|].
  do 3 eexists. split; [reflexivity|]. split; reflexivity.
Qed.
Example C42_example_midway :
  exists w, wrun (Some 3) worker_start (firstn 5 shutdown_events) = Some w /\ w_life w = Working
    /\ w_open w = false /\ w_cancelled w = true
    /\ (forall n j, In (n, FNew (MJob j)) (w_flights w) -> runnable text_codec mail_fns j \/ undecodable text_codec j).
Proof.
  eexists. split; [vm_compute; reflexivity|]. split; [reflexivity|]. split; [reflexivity|]. split; [reflexivity|].
  intros n j H. cbn in H. destruct H as [H|[H|[]]]; [discriminate|]. injection H as <- <-. right. exists EncodeError. reflexivity.
Qed.

(** Nothing else is lost: the messages that came out of the backend's stream are taken in that order,
    except the one in transit; once the stream has ended or the worker has panicked at most one is
    missing, and none if the stream returns what it takes from the backend in the same poll. *)
Definition obtained (es : list worker_event) : list message :=
  flat_map (fun e => match e with WTake m | WFetch m => [m] | _ => [] end) es.
Definition taken (w : worker) : list (nat * message) :=
  flat_map (fun o => match o with Taken n m => [(n, m)] | _ => [] end) (rev (w_seen w)).
Definition transit (w : worker) : list message := match w_transit w with Some m => [m] | None => [] end.
Lemma taken_cons n m w fl k cc oo tr li :
  taken (mk_worker fl k cc oo tr li (Taken n m :: w_seen w)) = taken w ++ [(n, m)].
Proof. unfold taken. cbn [w_seen rev]. rewrite flat_map_app. reflexivity. Qed.
Lemma taken_same obs w fl k cc oo tr li : (forall n m, ~ In (Taken n m) obs) ->
  taken (mk_worker fl k cc oo tr li (obs ++ w_seen w)) = taken w.
Proof.
  intro H. unfold taken. cbn [w_seen]. rewrite rev_app_distr, flat_map_app.
  replace (flat_map _ (rev obs)) with (@nil (nat * message)); [apply app_nil_r|].
  assert (H' : forall n m, ~ In (Taken n m) (rev obs)) by (intros n m Hi; apply (H n m), in_rev, Hi).
  induction (rev obs) as [|o l IH]; [reflexivity|]. cbn. rewrite <- IH by (intros n m Hi; apply (H' n m); right; exact Hi).
  destruct o as [n m| | |]; try reflexivity. destruct (H' n m). left. reflexivity.
Qed.
Lemma taken_step {D M} (c : codec D M) fns show limit w e w' : worker_step c fns show limit w e = Some w' ->
  (exists m, taken w' = taken w ++ [(w_next w, m)] /\ w_next w' = S (w_next w) /\ w_open w = true
     /\ transit w ++ obtained [e] = [m] /\ transit w' = [])
  \/ (exists m, e = WFetch m /\ taken w' = taken w /\ w_next w' = w_next w /\ w_open w = true /\ transit w = [] /\ transit w' = [m])
  \/ (taken w' = taken w /\ w_next w' = w_next w /\ obtained [e] = []
      /\ (w_open w' = true -> w_open w = true /\ transit w' = transit w)).
Proof.
  intro Hs. unfold worker_step in Hs. destruct (w_life w); try discriminate.
  assert (Hp : may_poll limit w = true -> w_open w = true).
  { unfold may_poll. intro H. apply andb_true_iff in H. destruct H as [H _]. apply andb_true_iff in H. tauto. }
  assert (Hcr : taken (crash w) = taken w) by reflexivity.
  assert (Hpr : forall n ph obs, (forall k m, ~ In (Taken k m) obs) -> taken (progress n ph obs w) = taken w).
  { intros n ph obs H. apply taken_same. exact H. }
  destruct e as [m|m| | | | |n|n now1 now2 o|n r|].
  - destruct (w_transit w) eqn:Et; [discriminate|]. destruct (may_poll limit w); [|discriminate]. injection Hs as <-.
    left. exists m. unfold push_flight. rewrite taken_cons. unfold transit. rewrite Et. cbn. auto 6.
  - destruct (w_transit w) eqn:Et; [discriminate|]. destruct (may_poll limit w); [|discriminate]. injection Hs as <-.
    right. left. exists m. unfold transit. rewrite Et. cbn. auto 7.
  - destruct (w_transit w) as [m|] eqn:Et; [|discriminate]. destruct (may_poll limit w); [|discriminate]. injection Hs as <-.
    left. exists m. unfold push_flight. rewrite taken_cons. unfold transit. rewrite Et. cbn. auto 6.
  - destruct (w_transit w) eqn:Et; [discriminate|]. destruct (may_poll limit w); [|discriminate]. injection Hs as <-.
    right. right. split; [reflexivity|]. split; [reflexivity|]. split; [reflexivity|discriminate].
  - injection Hs as <-. right. right. auto 6.
  - destruct (w_open w && w_cancelled w && below_limit limit (length (w_flights w))); [|discriminate]. injection Hs as <-.
    right. right. cbn [w_open]. split; [reflexivity|]. split; [reflexivity|]. split; [reflexivity|discriminate].
  - right. right. destruct (flight_of n (w_flights w)) as [[[j|er]|x|op]|]; try discriminate.
    + destruct (begin_job c fns j); injection Hs as <-.
      * rewrite Hpr by (intros k m [H|[]]; discriminate). auto.
      * rewrite Hpr by (intros k m []). auto.
      * split; [reflexivity|]. split; [reflexivity|]. split; [reflexivity|discriminate].
    + injection Hs as <-. rewrite Hpr by (intros k m []). auto.
  - right. right. destruct (flight_of n (w_flights w)) as [[m|x|op]|]; try discriminate.
    set (w1 := progress n (Some (FExecuting x)) [Outcome n o] w) in *.
    assert (H1 : taken w1 = taken w) by (apply Hpr; intros k m [H|[]]; discriminate).
    assert (E' : match report show now1 now2 x o with
          | Some op => Some (progress n (Some (FReporting op)) [Reported n op] w1) | None => Some (crash w1) end = Some w').
    { destruct o; try exact Hs. destruct (x_timeout x); [exact Hs|discriminate]. }
    destruct (report show now1 now2 x o) as [op|]; injection E' as <-.
    + split; [|split; [reflexivity|split; [reflexivity|auto]]]. rewrite <- H1. apply taken_same. intros k m [H|[]]; discriminate.
    + split; [exact H1|]. split; [reflexivity|]. split; [reflexivity|discriminate].
  - right. right. destruct (flight_of n (w_flights w)) as [[m|x|op]|]; try discriminate.
    destruct r; injection Hs as <-; (split; [first [reflexivity|apply Hpr; intros k m []]|]); (split; [reflexivity|]); (split; [reflexivity|]); auto; discriminate.
  - right. right. destruct (w_open w), (w_flights w); try discriminate. injection Hs as <-.
    split; [reflexivity|]. split; [reflexivity|]. split; [reflexivity|discriminate].
Qed.
Theorem C42_nothing_else_lost : forall D M (c : codec D M) fns show limit es w,
  worker_run c fns show limit worker_start es = Some w ->
  exists missing, obtained es = map snd (taken w) ++ missing
    /\ map fst (taken w) = seq 0 (length (taken w)) /\ (length missing <= 1)%nat
    /\ (w_open w = true -> missing = transit w)
    /\ ((forall m, ~ In (WFetch m) es) -> missing = []).
Proof.
  intros D M c fns show limit es w Hr.
  assert (G : exists missing, obtained es = map snd (taken w) ++ missing
    /\ map fst (taken w) = seq 0 (length (taken w)) /\ w_next w = length (taken w) /\ (length missing <= 1)%nat
    /\ (w_open w = true -> missing = transit w)
    /\ ((forall m, ~ In (WFetch m) es) -> missing = [])).
  2:{ destruct G as [miss [H1 [H2 [_ H3]]]]. exists miss. auto. }
  revert w Hr. induction es as [|e es IH] using rev_ind; intros w Hr.
  - injection Hr as <-. exists []. cbn. auto 6.
  - rewrite run_app in Hr. destruct (worker_run c fns show limit worker_start es) as [w0|] eqn:E0; [|discriminate].
    cbn [worker_run] in Hr. destruct (worker_step c fns show limit w0 e) as [w1|] eqn:Es; [|discriminate]. injection Hr as ->.
    destruct (IH w0 eq_refl) as [miss [H1 [H2 [H3 [H4 [H5 H6]]]]]].
    assert (Ho : obtained (es ++ [e]) = obtained es ++ obtained [e]) by (unfold obtained; apply flat_map_app).
    assert (H6' : (forall m, ~ In (WFetch m) (es ++ [e])) -> miss = []).
    { intro H. apply H6. intros m Hi. apply (H m), in_or_app. auto. }
    rewrite Ho, H1. destruct (taken_step _ _ _ _ _ _ _ Es) as [[m [A1 [A2 [A3 [A4 A5]]]]]|[[m [-> [A1 [A2 [A3 [A4 A5]]]]]]|[A1 [A2 [A3 A4]]]]].
    + exists []. rewrite (H5 A3), <- app_assoc, A4, A1, A2, A5, !map_app, app_length, H2, H3, app_nil_r. cbn [map fst snd length].
      split; [reflexivity|]. rewrite Nat.add_1_r, seq_S. auto.
    + exists [m]. rewrite (H5 A3), A4, A1, A2, A5, app_nil_r. split; [reflexivity|]. split; [exact H2|]. split; [exact H3|].
      split; [cbn; lia|]. split; [auto|]. intro H. destruct (H m). apply in_or_app. right. left. reflexivity.
    + exists miss. rewrite A3, A1, A2, app_nil_r. split; [reflexivity|]. split; [exact H2|]. split; [exact H3|]. split; [exact H4|].
      split; [|exact H6']. intro Hop. destruct (A4 Hop) as [B1 B2]. rewrite B2. auto.
Qed.
Print Assumptions C42_nothing_else_lost.
Example C42_nothing_else_lost_example :
  exists w w', wrun (Some 3) worker_start [WFetch (MJob odd_job); WYield; WTake (MError BadState); WFetch (MJob (mail_job 1 1 3)); WStart 0] = Some w
    /\ taken w = [(0%nat, MJob odd_job); (1%nat, MError BadState)] /\ transit w = [MJob (mail_job 1 1 3)] /\ w_open w = true
    /\ wstep (Some 3) w WYield = Some w' /\ taken w' = taken w ++ [(2%nat, MJob (mail_job 1 1 3))].
Proof. do 2 eexists. split; [vm_compute; reflexivity|]. repeat split. Qed.

(** Once the stream has been closed, its item in transit is gone with it. *)
Theorem C42_closed_is_empty : forall D M (c : codec D M) fns show limit es w,
  worker_run c fns show limit worker_start es = Some w -> w_open w = false -> transit w = [].
Proof.
  intros D M c fns show limit es.
  assert (G : forall w, worker_run c fns show limit worker_start es = Some w -> w_open w = false -> w_transit w = None).
  2:{ intros w Hr Ho. unfold transit. rewrite (G w Hr Ho). reflexivity. }
  induction es as [|e es IH] using rev_ind; intros w Hr Ho; [injection Hr as <-; discriminate|].
  rewrite run_app in Hr. destruct (worker_run c fns show limit worker_start es) as [w0|]; [|discriminate].
  specialize (IH w0 eq_refl). cbn [worker_run] in Hr.
  destruct (worker_step c fns show limit w0 e) as [w1|] eqn:Hs; [|discriminate]. injection Hr as ->.
  assert (Hp : may_poll limit w0 = true -> w_open w0 = true).
  { unfold may_poll. intro H. apply andb_true_iff in H. destruct H as [H _]. apply andb_true_iff in H. tauto. }
  unfold worker_step in Hs. destruct (w_life w0); try discriminate.
  destruct e as [m|m| | | | |n|n now1 now2 o|n r|].
  - destruct (w_transit w0); [discriminate|]. destruct (may_poll limit w0); [|discriminate]. injection Hs as <-. reflexivity.
  - destruct (w_transit w0); [discriminate|]. destruct (may_poll limit w0); [|discriminate]. injection Hs as <-.
    cbn in Ho. rewrite Hp in Ho by reflexivity. discriminate.
  - destruct (w_transit w0); [|discriminate]. destruct (may_poll limit w0); [|discriminate]. injection Hs as <-. reflexivity.
  - destruct (w_transit w0); [discriminate|]. destruct (may_poll limit w0); [|discriminate]. injection Hs as <-. reflexivity.
  - injection Hs as <-. auto.
  - destruct (w_open w0 && w_cancelled w0 && below_limit limit (length (w_flights w0))); [|discriminate].
    injection Hs as <-. reflexivity.
  - destruct (flight_of n (w_flights w0)) as [[[j|er]|x|op]|]; try discriminate;
      [destruct (begin_job c fns j)|]; injection Hs as <-; auto.
  - destruct (flight_of n (w_flights w0)) as [[m|x|op]|]; try discriminate.
    destruct o; try destruct (x_timeout x); try discriminate;
      destruct (report show now1 now2 x _); injection Hs as <-; auto.
  - destruct (flight_of n (w_flights w0)) as [[m|x|op]|]; try discriminate.
    destruct r; injection Hs as <-; auto.
  - destruct (w_open w0); [discriminate|]. destruct (w_flights w0); [|discriminate]. injection Hs as <-. reflexivity.
Qed.
Print Assumptions C42_closed_is_empty.
Example C42_closed_is_empty_example :
  exists w w', wrun None worker_start [WFetch (MJob odd_job); WCancel] = Some w /\ transit w = [MJob odd_job]
    /\ wstep None w WClose = Some w' /\ w_open w' = false /\ transit w' = [].
Proof. do 2 eexists. split; [vm_compute; reflexivity|]. repeat split. Qed.

(** With a stream that hands a job out in one poll and returns it in a later one, as the Postgres
    stream does, a shutdown in between loses the job: it was marked executing and is never run. *)
Theorem C42_lost_in_transit_refuted :
  exists j w, wrun None worker_start [WFetch (MJob j); WCancel; WClose; WFinish] = Some w
    /\ runnable text_codec mail_fns j /\ j_status j = Executing
    /\ w_life w = Ended /\ w_seen w = [] /\ (forall e, wstep None w e = None).
Proof.
  exists (mail_job 1 1 3). eexists. split; [vm_compute; reflexivity|].
  split; [do 3 eexists; split; [reflexivity|]; split; reflexivity|]. split; [reflexivity|].
  split; [reflexivity|]. split; [reflexivity|]. intro e. reflexivity.
Qed.
Print Assumptions C42_lost_in_transit_refuted.

(** * C60 Job life cycle *)

Theorem C60_life_cycle : forall D M (c : codec D M) fns show p es s,
  orderly_run c fns show p sys_init es s -> requests es <= 4294967296 ->
  NoDup (map (fun h => j_id (h_job h)) (s_held s))
  /\ (forall id, holds s id <-> exists j, In j (jobs_of (s_mem s)) /\ j_id j = id /\ j_status j = Executing)
  /\ forall j, In j (jobs_of (s_mem s)) ->
       (waiting j -> 0 <= j_attempt j < j_max_attempts j)
       /\ (j_status j = Executing -> 1 <= j_attempt j <= j_max_attempts j)
       /\ (j_status j = Discarded -> j_attempt j = j_max_attempts j)
       /\ (finished j -> 0 <= j_attempt j <= j_max_attempts j)
       /\ timestamps_match j
       /\ j_attempt j = results (j_id j) s + (if status_eq_dec (j_status j) Executing then 1 else 0).
Proof.
  intros D M c fns show p es s Hr Hq. pose proof (run_sinv c fns show p es s Hr Hq) as I.
  split; [exact (si_nodup _ _ _ _ _ _ I)|]. split.
  - intro id. unfold holds. split.
    + intros [h [Hh <-]]. destruct (si_held _ _ _ _ _ _ I h Hh) as [k [Hk [F1 [F2 _]]]].
      exists (kj_job k). split; [unfold jobs_of; apply in_map; exact Hk|]. split; [exact F1|exact F2].
    + intros [j [Hj [<- Hst]]]. unfold jobs_of in Hj. apply in_map_iff in Hj. destruct Hj as [k [<- Hk]].
      destruct (si_executing _ _ _ _ _ _ I k Hk Hst) as [h [Hh E]]. exists h. split; [exact Hh|exact E].
  - intros j Hj. unfold jobs_of in Hj. apply in_map_iff in Hj. destruct Hj as [k [<- Hk]].
    destruct (si_fine _ _ _ _ _ _ I k Hk) as [mx [_ [F1 F2 F3 F4 F5 F6 F7 F8 F9]]].
    rewrite F2. split; [intro Hw; specialize (F5 Hw); lia|]. split; [intro He; specialize (F6 He); lia|].
    split; [exact F7|]. split; [intros _; lia|]. split; [exact F8|].
    rewrite F1, is_status_eq. reflexivity.
Qed.
Print Assumptions C60_life_cycle.

(** Two workers: a failure, a retry, a snooze, a success, a cancellation of a waiting job, a rerun
    and a prune. *)
Definition sys_events : list sevent :=
  [ SOp 1 (OpEnqueue (req mail 0 5)); SOp 2 (OpEnqueue (req mail 0 6)); SOp 3 (OpEnqueue (req mail 0 7));
    STake 10 mail; STake 11 mail; SReport 20 20 21 0 (OError (Some ("custom"%string, "boom"%string)));
    SOp 22 (OpCancelled 2 stop); SReport 30 30 31 0 (OSnooze 5); STake 40 mail; SReport 50 50 51 0 ODone;
    SOp 60 (OpRerun 1); STake 1000000100 mail; STake 1000000200 mail;
    SOp 1000000300 (OpPrune (mk_prune_spec Cancelled (MaxLength 5) (Except [])));
    SReport 1000000400 1000000401 1000000402 1 OElapsed ].
Ltac orderly_step := eapply or_cons; [ | vm_compute; reflexivity | ].
Lemma sys_events_run : exists s, orderly_run text_codec mail_fns shown Debug sys_init sys_events s
  /\ requests sys_events = 3.
Proof.
  eexists. split; [|reflexivity]. unfold sys_events.
  assert (Hq : forall t prio, 1 <= eq_max_attempts (req mail prio t) <= 65535 /\ keeps_attempts (req mail prio t)).
  { intros t prio. split; [cbn; lia|]. intros uq r H. discriminate. }
  orderly_step. { apply Hq. }
  orderly_step. { apply Hq. }
  orderly_step. { apply Hq. }
  orderly_step. { exact Logic.I. }
  orderly_step. { exact Logic.I. }
  orderly_step. { exact Logic.I. }
  orderly_step. { intros j Hj Hid. cbn in Hj. repeat destruct Hj as [<-|Hj]; try discriminate; [|destruct Hj]. left; reflexivity. }
  orderly_step. { exact Logic.I. }
  orderly_step. { exact Logic.I. }
  orderly_step. { exact Logic.I. }
  orderly_step. { intros j Hj Hid. cbn in Hj. repeat destruct Hj as [<-|Hj]; try discriminate; [|destruct Hj]. cbn. split; [discriminate|lia]. }
  orderly_step. { exact Logic.I. }
  orderly_step. { exact Logic.I. }
  orderly_step. { cbn. split; [discriminate|exact Logic.I]. }
  orderly_step. { exact Logic.I. }
  apply or_nil.
Qed.
Example C60_example : exists s, orderly_run text_codec mail_fns shown Debug sys_init sys_events s
  /\ requests sys_events <= 4294967296
  /\ sys_run text_codec mail_fns shown Debug sys_init sys_events = Some s
  /\ map (fun j => (j_id j, j_status j, j_attempt j, j_max_attempts j)) (jobs_of (s_mem s))
     = [(0, Retryable, 2, 3); (1, Executing, 2, 4)].
Proof.
  destruct sys_events_run as [s [H Hq]]. exists s. split; [exact H|]. split; [rewrite Hq; lia|].
  assert (Hs : forall s es s', orderly_run text_codec mail_fns shown Debug s es s' ->
            sys_run text_codec mail_fns shown Debug s es = Some s').
  { intros s0 es s' Ho. induction Ho as [s0|s0 ev s1 es s' _ Hs _ IH]; cbn; [reflexivity|]. rewrite Hs. exact IH. }
  apply Hs in H. split; [exact H|]. revert H. vm_compute. intro H. injection H as <-. reflexivity.
Qed.

(** * C17 Attempts never exceed max attempts *)

(** Missing: requests for no attempt at all, and requests that lower the number of attempts of an
    existing job below the number already used; see the refutations. *)
Theorem C17_attempts_partial : forall D M (c : codec D M) fns show p es s id,
  orderly_run c fns show p sys_init es s -> requests es <= 4294967296 ->
  results id s = 0 \/ exists m, allowed c fns show p es id m /\ results id s <= m.
Proof.
  intros D M c fns show p es s id Hr Hq. exact (si_bound _ _ _ _ _ _ (run_sinv c fns show p es s Hr Hq) id).
Qed.
Print Assumptions C17_attempts_partial.

Example C17_example : exists s, orderly_run text_codec mail_fns shown Debug sys_init sys_events s
  /\ requests sys_events <= 4294967296
  /\ sys_run text_codec mail_fns shown Debug sys_init sys_events = Some s
  /\ results 1 s = 1 /\ results 0 s = 2.
Proof.
  destruct C60_example as [s [H [Hq [Hs _]]]]. exists s. split; [exact H|]. split; [exact Hq|]. split; [exact Hs|].
  revert Hs. vm_compute. intro Hs. injection Hs as <-. split; reflexivity.
Qed.

(** A request for no attempts at all is retried for ever: ten failures and still waiting. *)
Definition no_attempts (uq : option criteria) : enqueuable :=
  {| eq_executor := mail; eq_data := JStr "payload"; eq_metadata := JNull; eq_max_attempts := 0;
     eq_scheduled_at := 0; eq_tags := []; eq_priority := 0; eq_criteria := uq |}.
Definition failing (k : Z) (n : nat) : list sevent :=
  flat_map (fun i => [STake (k + Z.of_nat i * 2000000000) mail;
                      SReport (k + Z.of_nat i * 2000000000 + 1) (k + Z.of_nat i * 2000000000 + 1)
                              (k + Z.of_nat i * 2000000000 + 2) 0 (OAborted "failed")]) (seq 0 n).
Theorem C17_none_allowed_refuted :
  exists s j, sys_run text_codec mail_fns shown Debug sys_init
      (SOp 1 (OpEnqueue (no_attempts None)) :: failing 100 10) = Some s
    /\ results 0 s = 10 /\ jobs_of (s_mem s) = [j] /\ j_status j = Retryable /\ j_max_attempts j = 0.
Proof.
  do 2 eexists. split; [vm_compute; reflexivity|]. split; [vm_compute; reflexivity|].
  split; [vm_compute; reflexivity|]. split; reflexivity.
Qed.
(** A conflicting request that lowers the number of attempts to one already used does the same. *)
Definition lowering : enqueuable :=
  {| eq_executor := mail; eq_data := JStr "payload"; eq_metadata := JNull; eq_max_attempts := 1;
     eq_scheduled_at := 0; eq_tags := []; eq_priority := 0;
     eq_criteria := Some {| uc_key := None; uc_executor := true; uc_duration := None;
       uc_statuses := [Retryable];
       uc_on_conflict := Replace {| rp_data := false; rp_metadata := false; rp_max_attempts := true;
         rp_priority := false; rp_scheduled_at := false; rp_for_statuses := [Retryable] |} |} |}.
Theorem C17_lowered_refuted :
  exists s j, sys_run text_codec mail_fns shown Debug sys_init
      (SOp 1 (OpEnqueue (req mail 0 5)) :: failing 100 2
       ++ SOp 4500000000 (OpEnqueue lowering) :: failing 5000000000 10) = Some s
    /\ results 0 s = 12 /\ jobs_of (s_mem s) = [j] /\ j_status j = Retryable /\ j_max_attempts j = 1.
Proof.
  do 2 eexists. split; [vm_compute; reflexivity|]. split; [vm_compute; reflexivity|].
  split; [vm_compute; reflexivity|]. split; reflexivity.
Qed.
Print Assumptions C17_lowered_refuted.

(** * C18 A job that keeps failing is discarded exactly at its last attempt *)

(** A job that is left alone from outside and whose executions all fail or snooze: it allows the
    number [m] of attempts of its request, has failed at most [m] times, is discarded exactly when
    it has failed [m] times and until then is waiting or executing; its errors are numbered
    1, 2, ... up to the number of failures. *)
Theorem C18_discarded_at_last : forall D M (c : codec D M) fns show p es s j,
  orderly_run c fns show p sys_init es s -> requests es <= 4294967296 ->
  In j (jobs_of (s_mem s)) -> left_alone (j_id j) es ->
  (forall o, In o (outcomes (j_id j) s) -> is_failure o = true \/ is_snooze o = true) ->
  exists m, allowed c fns show p es (j_id j) m /\ j_max_attempts j = m /\ 1 <= m <= 65535
    /\ failures (j_id j) s <= m
    /\ (j_status j = Discarded <-> failures (j_id j) s = m)
    /\ (failures (j_id j) s < m <-> waiting j \/ j_status j = Executing)
    /\ map je_attempt (j_errors j) = map Z.of_nat (seq 1 (Z.to_nat (failures (j_id j) s))).
Proof.
  intros D M c fns show p es s j Hr Hq Hj Hal Hout. pose proof (run_sinv c fns show p es s Hr Hq) as I.
  unfold jobs_of in Hj. apply in_map_iff in Hj. destruct Hj as [k [<- Hk]].
  destruct (si_fine _ _ _ _ _ _ I k Hk) as [mx [B [F1 F2 F3 F4 F5 F6 F7 F8 F9]]].
  destruct (F9 Hal) as [A1 [A2 [A3 A4]]]. set (j := kj_job k) in *.
  assert (Hrf : results (j_id j) s = failures (j_id j) s).
  { unfold results, failures. f_equal. f_equal. clear -Hout. induction (outcomes (j_id j) s) as [|o l IH]; [reflexivity|].
    cbn. assert (H : is_failure o = true \/ is_snooze o = true) by (apply Hout; left; reflexivity).
    rewrite IH by (intros x Hx; apply Hout; right; exact Hx).
    destruct o; cbn in *; try reflexivity; destruct H; discriminate. }
  rewrite !is_status_eq in *.
  assert (Hm : 1 <= mx).
  { destruct B as [es1 [now [e [es2 [s1 [_ [_ [_ [_ [Hb ->]]]]]]]]]]. unfold reruns. lia. }
  assert (N1 : j_status j <> Complete) by (intro E; rewrite E in A3; cbn in A3; lia).
  assert (N2 : j_status j <> Cancelled) by (intro E; rewrite E in A3; cbn in A3; lia).
  assert (Z1 : b2z (is_status Complete j) = 0).
  { rewrite is_status_eq. destruct (status_eq_dec (j_status j) Complete); [contradiction|reflexivity]. }
  exists mx. split; [exact B|]. split; [exact F2|]. split; [lia|].
  rewrite <- Hrf. unfold waiting in *.
  assert (Hle : results (j_id j) s <= mx).
  { destruct (status_eq_dec (j_status j) Executing); lia. }
  split; [exact Hle|]. rewrite <- !is_status_eq in A2. rewrite Z1, Z.sub_0_r in A2.
  split; [|split; [|exact A2]].
  - clear F9 A1 A2 A3 A4. destruct (j_status j) eqn:Est; cbn in F1; try contradiction;
      (split; intro Hs; try discriminate; try reflexivity);
      try (specialize (F5 (or_introl eq_refl))); try (specialize (F5 (or_intror eq_refl)));
      try (specialize (F7 eq_refl)); lia.
  - clear F9 A1 A2 A3 A4. destruct (j_status j) eqn:Est; cbn in F1; try contradiction; (split; intro Hs; auto);
      try (specialize (F5 (or_introl eq_refl))); try (specialize (F5 (or_intror eq_refl)));
      try (specialize (F6 eq_refl)); try (specialize (F7 eq_refl)); try lia.
    destruct Hs as [[Hs|Hs]|Hs]; discriminate.
Qed.
Print Assumptions C18_discarded_at_last.

(** Three attempts: failure, snooze, failure, failure. *)
Definition failing_events : list sevent :=
  SOp 1 (OpEnqueue (req mail 0 5)) :: failing 100 1 ++ [STake 5000000000 mail; SReport 5000000001 5000000001 5000000002 0 (OSnooze 7)]
  ++ failing 6000000000 2.
Example C18_example : exists s, orderly_run text_codec mail_fns shown Debug sys_init failing_events s
  /\ requests failing_events <= 4294967296
  /\ exists j, In j (jobs_of (s_mem s)) /\ left_alone (j_id j) failing_events
    /\ (forall o, In o (outcomes (j_id j) s) -> is_failure o = true \/ is_snooze o = true)
    /\ j_status j = Discarded /\ length (j_errors j) = 3%nat.
Proof.
  eexists. split.
  { unfold failing_events, failing. cbn [flat_map seq app].
    orderly_step. { split; [cbn; lia|]. intros uq r H. discriminate. }
    do 8 (orderly_step; [exact Logic.I|]). apply or_nil. }
  split; [vm_compute; discriminate|]. eexists. split; [left; reflexivity|]. split.
  { intros now o H. unfold failing_events, failing in H. cbn [flat_map seq app In] in H.
    repeat (destruct H as [H|H]; [try discriminate; injection H as <- <-; exact Logic.I|]). destruct H. }
  split; [|split; reflexivity].
  intros o H. vm_compute in H. repeat (destruct H as [<-|H]; [auto|]). destruct H.
Qed.
