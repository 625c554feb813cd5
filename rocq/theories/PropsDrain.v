(** Properties of workers over the in-memory store: C90, work comes to an end. *)
From Verif Require Import Base Chrono Types TypesProofs Query Memory MemSpec MemProofs MemHist MemHist2 MemInv Samples
  Codec Builder Runner RunnerSpec WorkerProofs SysProofs PropsApi PropsRunner DrainProofs.

(** * C90 Work comes to an end *)

(** However workers, clocks and executions interleave, from any state that can be reached on, the
    executions that end with a result (done, an error, a panic, a timeout, a cancellation) are no
    more than those the store's jobs still had and those that later requests ask for; what is left
    at the end is not counted.  Reruns give jobs new attempts and are excluded; snoozes are not
    results. *)
Theorem C90_bounded : forall D M (c : codec D M) fns show p es0 s0 es s,
  orderly_run c fns show p sys_init es0 s0 -> orderly_run c fns show p s0 es s ->
  requests (es0 ++ es) <= 4294967296 -> reruns_nothing es ->
  exists new, s_log s = new ++ s_log s0 /\ 0 <= work_left s
    /\ results_in new + work_left s <= work_left s0 + attempts_asked es.
Proof.
  intros D M c fns show p es0 s0 es s H0 H Hq Hn.
  destruct (work_run c fns show p es es0 s0 s H0 Hq H Hn) as [new [E1 H1]].
  exists new. split; [exact E1|]. split; [|exact H1]. eapply work_nonneg; [|exact Hq].
  eapply orun_app; eassumption.
Qed.
Print Assumptions C90_bounded.
(** From the empty store: no more results than attempts asked for. *)
Theorem C90_from_nothing : forall D M (c : codec D M) fns show p es s,
  orderly_run c fns show p sys_init es s -> requests es <= 4294967296 -> reruns_nothing es ->
  results_in (s_log s) <= attempts_asked es.
Proof.
  intros D M c fns show p es s H Hq Hn.
  destruct (C90_bounded D M c fns show p [] sys_init es s) as [new [E [H1 H2]]]; [constructor|exact H|exact Hq|exact Hn|].
  rewrite E, app_nil_r. change (work_left sys_init) with 0 in H2. lia.
Qed.
Print Assumptions C90_from_nothing.

(** When no worker holds a job and the store hands none out to anybody, every job whose time has come
    is finished. *)
Theorem C90_no_work_left : forall D M (c : codec D M) fns show p es s now,
  orderly_run c fns show p sys_init es s -> requests es <= 4294967296 -> s_held s = [] ->
  (forall ex, snd (mem_load p now (s_mem s) ex) = Ok None) ->
  forall j, In j (jobs_of (s_mem s)) -> j_scheduled_at j <= now -> finished j.
Proof.
  intros D M c fns show p es s now H Hq Hh Hl j Hj Ht.
  eapply idle_finished; [apply run_sinv; eassumption|exact Hh|exact Hl|exact Hj|].
  change (100 * ns_per_ms) with 100000000. unfold time in *. lia.
Qed.
Print Assumptions C90_no_work_left.

(** From any state that can be reached, if the workers execute what they hold and every waiting job
    can be started, the workers can finish every job, starting at any time they like, by taking
    jobs and completing them, without help from outside; no job is lost on the way. *)
Theorem C90_can_finish : forall D M (c : codec D M) fns show p es s T,
  orderly_run c fns show p sys_init es s -> requests es <= 4294967296 ->
  (forall h, In h (s_held s) -> h_exec h <> None) ->
  (forall j, In j (jobs_of (s_mem s)) -> waiting j ->
     forall now, exists x, begin_job c fns (after_hand_out now j) = Spawned x) ->
  exists es' s', orderly_run c fns show p s es' s'
    /\ Forall (fun ev => match ev with
                         | STake now _ => T <= now
                         | SReport now1 now2 now _ o => T <= now1 /\ T <= now2 /\ T <= now /\ o = ODone
                         | SOp _ _ => False
                         end) es'
    /\ s_held s' = [] /\ map j_id (jobs_of (s_mem s')) = map j_id (jobs_of (s_mem s))
    /\ forall j, In j (jobs_of (s_mem s')) -> finished j.
Proof.
  intros D M c fns show p es s T H Hq Hx Hst.
  destruct (can_finish c fns show p _ T es s (le_n _) H Hq Hx Hst) as (es' & s' & A1 & A2 & A3 & A4 & A5).
  exists es', s'. repeat (split; [assumption|]). exact A5.
Qed.
Print Assumptions C90_can_finish.

(** The events of [sys_events] before the rerun. *)
Definition early_events : list sevent := firstn 10 sys_events.
Definition by_status (s : sys) : list (Z * status * Z * Z) :=
  map (fun j => (j_id j, j_status j, j_attempt j, j_max_attempts j)) (jobs_of (s_mem s)).
Example C90_example : exists s1 s,
  orderly_run text_codec mail_fns shown Debug sys_init (firstn 4 sys_events) s1
  /\ orderly_run text_codec mail_fns shown Debug s1 (skipn 4 early_events) s
  /\ requests early_events <= 4294967296 /\ reruns_nothing early_events
  /\ by_status s1 = [(0, Executing, 1, 3); (1, Scheduled, 0, 3); (2, Scheduled, 0, 3)]
  /\ by_status s = [(0, Retryable, 1, 3); (1, Complete, 1, 3); (2, Cancelled, 0, 3)]
  /\ work_left s1 = 9 /\ work_left s = 2 /\ attempts_asked early_events = 9 /\ results_in (s_log s) = 2
  /\ (forall h, In h (s_held s) -> h_exec h <> None)
  /\ (forall j, In j (jobs_of (s_mem s)) -> waiting j ->
        forall now, exists x, begin_job text_codec mail_fns (after_hand_out now j) = Spawned x)
  /\ exists es' s', orderly_run text_codec mail_fns shown Debug s es' s' /\ requests (early_events ++ es') <= 4294967296
       /\ s_held s' = [] /\ by_status s' = [(0, Complete, 2, 3); (1, Complete, 1, 3); (2, Cancelled, 0, 3)]
       /\ forall ex, snd (mem_load Debug 3000000000 (s_mem s') ex) = Ok None.
Proof.
  destruct sys_events_run as [sx [H _]].
  assert (Hsplit : forall n es s s', orderly_run text_codec mail_fns shown Debug s es s' ->
    exists s1, orderly_run text_codec mail_fns shown Debug s (firstn n es) s1
      /\ orderly_run text_codec mail_fns shown Debug s1 (skipn n es) s').
  { induction n as [|n IH]; intros es s s' Hr; [exists s; split; [constructor|exact Hr]|].
    destruct Hr as [s|s ev s1 es s' Ho Hs Hr]; [exists s; split; constructor|].
    destruct (IH _ _ _ Hr) as [s2 [A B]]. exists s2. split; [econstructor; eassumption|exact B]. }
  assert (Hrun : forall s es s', orderly_run text_codec mail_fns shown Debug s es s' ->
            sys_run text_codec mail_fns shown Debug s es = Some s').
  { intros s0 es s' Ho. induction Ho as [s0|s0 ev s1 es s' _ Hs _ IH]; cbn; [reflexivity|]. rewrite Hs. exact IH. }
  destruct (Hsplit 10%nat _ _ _ H) as [s [Ha _]]. fold early_events in Ha.
  destruct (Hsplit 4%nat _ _ _ Ha) as [s1 [Hb Hc]].
  exists s1, s. split; [exact Hb|]. split; [exact Hc|].
  apply Hrun in Ha. apply Hrun in Hb. vm_compute in Ha. vm_compute in Hb. injection Ha as <-. injection Hb as <-. clear Hc H.
  split; [vm_compute; discriminate|].
  split; [intros now id Hin; cbn in Hin; repeat (destruct Hin as [Hin|Hin]; [discriminate|]); destruct Hin|].
  do 6 (split; [vm_compute; reflexivity|]).
  split; [intros h []|].
  split.
  { intros j Hj Hw now. cbn in Hj. repeat destruct Hj as [<-|Hj]; [eexists; reflexivity|destruct Hw; discriminate..|destruct Hj]. }
  exists [STake 2000000000 mail; SReport 2100000000 2100000000 2100000000 0 ODone]. eexists. split.
  { orderly_step. { exact Logic.I. } orderly_step. { exact Logic.I. } apply or_nil. }
  split; [vm_compute; discriminate|]. split; [reflexivity|]. split; [reflexivity|]. intro ex.
  match goal with |- snd (mem_load _ _ ?m _) = _ => set (m0 := m) end.
  assert (Hf : forall k, In k (m_jobs m0) -> ~ waiting (kj_job k)).
  { intros k Hk Hw. cbn in Hk. repeat destruct Hk as [<-|Hk]; [destruct Hw; discriminate..|destruct Hk]. }
  pose proof (mem_load_spec Debug 3000000000 m0 ex eq_refl) as Hl.
  destruct (mem_load Debug 3000000000 m0 ex) as [m' r]. destruct r as [[j|]|e|]; [|reflexivity|destruct Hl|].
  - destruct Hl as [pre [k1 [post [E1 [[_ [Hw _]] _]]]]]. destruct (Hf k1); [rewrite E1; apply in_elt|exact Hw].
  - destruct Hl as [_ [k1 [Hk1 [[_ [Hw _]] _]]]]. destruct (Hf k1 Hk1 Hw).
Qed.

(** Hand-outs are not bounded as results are: a job that is allowed three attempts and snoozes each time
    is handed out ten times, with no result, and is still waiting with all its attempts. *)
Definition snoozing (n : nat) : list sevent :=
  flat_map (fun i => [STake (100 + Z.of_nat i * 1000) mail;
                      SReport (101 + Z.of_nat i * 1000) (101 + Z.of_nat i * 1000) (102 + Z.of_nat i * 1000) 0 (OSnooze 5)])
           (seq 0 n).
Theorem C90_snoozes_refuted :
  exists s j, sys_run text_codec mail_fns shown Debug sys_init (SOp 1 (OpEnqueue (req mail 0 5)) :: snoozing 10) = Some s
    /\ attempts_asked (SOp 1 (OpEnqueue (req mail 0 5)) :: snoozing 10) = 3
    /\ length (s_log s) = 10%nat /\ results_in (s_log s) = 0 /\ jobs_of (s_mem s) = [j] /\ waiting j
    /\ j_attempt j = 0 /\ work_left s = 3.
Proof.
  do 2 eexists. split; [vm_compute; reflexivity|]. split; [reflexivity|]. split; [reflexivity|]. split; [reflexivity|].
  split; [reflexivity|]. split; [left; reflexivity|]. split; reflexivity.
Qed.
Print Assumptions C90_snoozes_refuted.
