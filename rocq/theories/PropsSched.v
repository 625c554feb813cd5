(** Properties of the cron and pruner loops (C43, C44, C45) and of prune rules (C28). *)
From Coq Require Import Sorted.
From Verif Require Import Base Chrono Types TypesProofs Query Memory MemSpec QueryProofs MemProofs
  MemHist MemHist2 MemThms Codec Builder Ticker Pruner SchedSpec SchedProofs ApiSpec ApiProofs
  PropsMem PropsApi Samples.

(** * C28 Pruner scope combinators *)

(** The rule a pruner expression turns into selects the jobs with its status belonging to the
    executors it names (or does not exclude), with the limit it was given. *)
Theorem C28_scope : forall x j,
  (prune_matches (prune_spec_of (eval_pruner x)) j = true
   <-> j_status j = expr_status x /\ expr_covers x (j_executor j))
  /\ ps_by (prune_spec_of (eval_pruner x)) = expr_limit x.
Proof.
  intros x j. rewrite spec_of_expr. split; [|reflexivity].
  unfold prune_matches. cbn [ps_status ps_executors]. rewrite Bool.andb_true_iff, status_eqb_eq.
  apply and_iff_compat_l. destruct x as [l s|l s first more|l s first more]; cbn [spec_matches expr_covers].
  - cbn. tauto.
  - rewrite existsb_exists. split.
    + intros [y [[<-|Hy] Heq]]; apply String.eqb_eq in Heq; [left; congruence | right; rewrite <- Heq; exact Hy].
    + intros [Heq|Hin]; [exists first | exists (j_executor j)].
      * split; [left; reflexivity | apply String.eqb_eq; congruence].
      * split; [right; exact Hin | apply String.eqb_eq; reflexivity].
  - rewrite forallb_forall. split.
    + intro H. split.
      * intro Heq. specialize (H first (or_introl eq_refl)). rewrite Heq, String.eqb_refl in H. discriminate.
      * intro Hin. specialize (H _ (or_intror Hin)). rewrite String.eqb_refl in H. discriminate.
    + intros [H1 H2] y Hy. destruct (String.eqb_spec y (j_executor j)) as [->|]; [|reflexivity].
      destruct Hy as [Hy|Hy]; [congruence | contradiction].
Qed.
Print Assumptions C28_scope.

(** Run against the in-memory backend, such a rule removes only jobs it names. *)
Theorem C28_removes_only : forall x p now m m' r,
  mem_step p now m (OpPrune (prune_spec_of (eval_pruner x))) = (m', r) ->
  retained (fun j => j_status j = expr_status x /\ expr_covers x (j_executor j)) (jobs_of m) (jobs_of m').
Proof.
  intros x p now m m' r H. apply C27_prune_scope in H.
  assert (Hi : forall j, in_scope (prune_spec_of (eval_pruner x)) j
                         -> j_status j = expr_status x /\ expr_covers x (j_executor j)).
  { intro j. rewrite spec_of_expr. unfold in_scope. cbn [ps_status ps_executors].
    intros [H1 H2]. split; [exact H1|]. destruct x; cbn in *; [exact Logic.I | | ].
    - destruct H2 as [H2|H2]; [left; congruence | right; exact H2].
    - split; [intro He; apply H2; left; congruence | intro He; apply H2; right; exact He]. }
  induction H; constructor; auto.
Qed.
Print Assumptions C28_removes_only.

(** Without a scope, every executor's jobs are selected. *)
Example C28_example :
  let x := PExcept (LimAge 100) Scheduled push ["other"%string] in
  expr_covers x mail /\ ~ expr_covers x push
  /\ map j_id (jobs_of (fst (mem_step Debug 1000 m_sample
                              (OpPrune (prune_spec_of (eval_pruner (PAll (LimAge 100) Scheduled))))))) = [0; 1]
  /\ map j_id (filter (prune_matches (prune_spec_of (eval_pruner x))) (jobs_of m_sample))
     = map j_id (filter (fun j => status_eqb (j_status j) Scheduled && String.eqb (j_executor j) mail) (jobs_of m_sample)).
Proof.
  cbn zeta. split; [vm_compute; split; [discriminate|intros [H|[]]; discriminate H]|].
  split; [intros [H _]; apply H; reflexivity|]. vm_compute. auto.
Qed.

(** * C43 Cron ticks *)

(** The loop acts on each instant at most once and in increasing order... *)
Theorem C43_in_order : forall instants upcoming start es s,
  answers instants upcoming -> tick_run upcoming (ticker_start start) es = Some s ->
  StronglySorted Z.lt (map snd (actions s)).
Proof.
  intros I up start es s Hup Hr.
  destruct (good_run I up Hup start es _ s (good_start I start) Hr) as [_ [H _]].
  apply ss_map. unfold actions. apply ss_rev. exact H.
Qed.
Print Assumptions C43_in_order.

(** ... only on instants of the schedule that come after its start, not earlier than 10ms before
    them. *)
Theorem C43_on_schedule : forall instants upcoming start es s c n,
  answers instants upcoming -> tick_run upcoming (ticker_start start) es = Some s ->
  In (c, n) (actions s) -> instants n /\ start < n /\ n - 10 * ns_per_ms <= c.
Proof.
  intros I up start es s c n Hup Hr Hi.
  destruct (good_run I up Hup start es _ s (good_start I start) Hr) as [_ [_ [H _]]].
  apply H. apply in_rev. exact Hi.
Qed.
Print Assumptions C43_on_schedule.

(** An instant is passed over only if the loop was busy: as long as every look at the schedule
    happens before it, no later instant is acted on without it. *)
Theorem C43_none_skipped : forall instants upcoming start es s i c n,
  answers instants upcoming -> tick_run upcoming (ticker_start start) es = Some s ->
  instants i -> start < i -> (forall c0, looks c0 es -> c0 < i) ->
  In (c, n) (actions s) -> i <= n -> In i (map snd (actions s)).
Proof.
  intros I up start es s i c n Hup Hr HI Hs Hl Hi Hle.
  pose proof (good_start I start) as Hg0.
  assert (Ha : ahead start i (ticker_start start)) by (right; cbn; auto).
  pose proof (good_run I up Hup start es _ s Hg0 Hr) as Hg.
  destruct (ahead_run I up Hup start i es _ s HI Hg0 Ha Hr Hl) as [[c' H]|[H _]].
  - apply in_map_iff. exists (c', i). split; [reflexivity|]. unfold actions. apply in_rev.
    rewrite rev_involutive. exact H.
  - unfold actions in Hi. apply in_rev in Hi. pose proof (top_max I start s c n Hg Hi). lia.
Qed.
Print Assumptions C43_none_skipped.

(** The same between looks: an instant ahead at one look and not passed by a later look is acted on
    before any later instant. *)
Theorem C43_none_skipped_later : forall instants upcoming start es1 c0 c1 es2 s i c n,
  answers instants upcoming ->
  tick_run upcoming (ticker_start start) (es1 ++ Compute c0 c1 :: es2) = Some s ->
  instants i -> c0 < i -> (forall c', looks c' es2 -> c' < i) ->
  In (c, n) (actions s) -> i <= n -> In i (map snd (actions s)).
Proof.
  intros I up start es1 c0 c1 es2 s i c n Hup Hr HI Hlt Hl Hi Hle.
  pose proof (good_start I start) as Hg0. pose proof Hr as Hr0.
  rewrite tick_run_app in Hr. destruct (tick_run up (ticker_start start) es1) as [s1|] eqn:E1; [|discriminate].
  pose proof (good_run I up Hup start es1 _ s1 Hg0 E1) as Hg1.
  assert (Ha : ahead start i s1).
  { right. cbn in Hr. destruct (tick_step up s1 (Compute c0 c1)) as [s2|] eqn:E2; [|discriminate].
    destruct Hg1 as [_ [_ [_ Hp]]]. destruct s1 as [ph clk fd]. cbn in *.
    unfold tick_step in E2. cbn in E2. destruct ph; try discriminate E2.
    destruct (Z.leb_spec clk c0); [|discriminate E2]. split; [|exact Logic.I]. unfold top in *. cbn in *. lia. }
  pose proof (good_run I up Hup start _ _ s Hg0 Hr0) as Hg.
  assert (Hl' : forall c', looks c' (Compute c0 c1 :: es2) -> c' < i).
  { intros c' [x [Hx|Hx]]; [injection Hx as -> _; exact Hlt | apply Hl; exists x; exact Hx]. }
  destruct (ahead_run I up Hup start i _ _ s HI Hg1 Ha Hr Hl') as [[c' H]|[H _]].
  - apply in_map_iff. exists (c', i). split; [reflexivity|]. unfold actions. apply in_rev.
    rewrite rev_involutive. exact H.
  - unfold actions in Hi. apply in_rev in Hi. pose proof (top_max I start s c n Hg Hi). lia.
Qed.
Print Assumptions C43_none_skipped_later.

(** The loop never asks for more sleep than it needs: looking at [c0] (and reading the clock again
    at [c1]), it can act on the next instant [n] as soon as the clock shows 10ms before [n], hence
    before [n] whenever there are 10ms left. *)
Theorem C43_in_time : forall upcoming s c0 c1 n c,
  tk_phase s = Computing -> tk_clock s <= c0 -> c0 <= c1 -> upcoming c0 = Some n ->
  (exists s', tick_run upcoming s [Compute c0 c1; Wake c] = Some s' /\ actions s' = actions s ++ [(c, n)])
  <-> c1 <= c /\ n - 10 * ns_per_ms <= c.
Proof.
  intros up s c0 c1 n c Hp H0 H1 Hn. cbn [tick_run]. unfold tick_step at 1. rewrite Hp.
  rewrite !(proj2 (Z.leb_le _ _)) by assumption. cbn [andb]. rewrite Hn. cbn.
  destruct (tick_delay_spec n c1) as [_ Hd]. rewrite Hd. change (10 * ns_per_ms) with 10000000.
  destruct (Z.leb_spec c1 c); cbn; [|split; [intros [s' [H' _]]; discriminate|lia]].
  destruct (Z.leb_spec (c1 + Z.max 0 (n - c1 - 10000000)) c); cbn.
  - split; [intros _; unfold time in *; lia|]. intros _. eexists. split; [reflexivity|]. reflexivity.
  - split; [intros [s' [H' _]]; discriminate|unfold time in *; lia].
Qed.
Print Assumptions C43_in_time.

(** After acting, whatever the result, the loop is back at its top once the instant has passed. *)
Theorem C43_goes_on : forall upcoming s n c c',
  tk_phase s = Acting n -> tk_clock s <= c -> c <= c' -> n <= c' ->
  exists es s', tick_run upcoming s (Acted c false :: es) = Some s' /\ tk_phase s' = Computing
    /\ tk_clock s' <= c' /\ actions s' = actions s /\ (es = [] \/ es = [Rested c']).
Proof.
  intros up s n c c' Hp H1 H2 H3.
  assert (Hs : tick_step up s (Acted c false)
    = Some (mk_ticker (if 0 <? dt_diff n c then Resting (c + dt_diff n c) else Computing) c (tk_fired s))).
  { unfold tick_step. rewrite Hp, (proj2 (Z.leb_le _ _) H1). destruct (0 <? dt_diff n c); reflexivity. }
  destruct (Z.ltb_spec 0 (dt_diff n c)) as [Hlt|Hge].
  - exists [Rested c']. eexists. cbn [tick_run]. rewrite Hs. unfold tick_step. cbn [tk_phase tk_clock].
    rewrite (proj2 (Z.leb_le _ _) H2). unfold dt_diff. replace (c + (n - c)) with n by (unfold time in *; lia).
    rewrite (proj2 (Z.leb_le _ _) H3). cbn [andb]. split; [reflexivity|]. cbn. split; [reflexivity|].
    split; [unfold time in *; lia|]. split; [reflexivity|]. right; reflexivity.
  - exists []. eexists. cbn [tick_run]. rewrite Hs.
    split; [reflexivity|]. cbn. split; [reflexivity|]. split; [exact H2|]. split; [reflexivity|]. left; reflexivity.
Qed.
Print Assumptions C43_goes_on.

(** Cancellation is seen at the select, ends the loop and nothing is done afterwards. *)
Theorem C43_stops : forall upcoming s n until es s',
  tk_phase s = Sleeping n until ->
  tick_run upcoming s (Cancel :: es) = Some s' -> es = [] /\ actions s' = actions s /\ tk_phase s' = Stopped.
Proof.
  intros up s n until es s' Hp Hr. cbn [tick_run] in Hr. unfold tick_step at 1 in Hr. rewrite Hp in Hr.
  destruct es as [|e es]; [injection Hr as <-; auto|].
  cbn in Hr. unfold tick_step in Hr. cbn in Hr. destruct e; discriminate.
Qed.
Print Assumptions C43_stops.

(** What a tick enqueues: the builder's description, with the instant as scheduled time; on the
    in-memory backend the job is added to the store. *)
Theorem C43_job : forall D M (c : codec D M) ex data hash t n now m v,
  m_poisoned m = false -> enc_data c data = Some v ->
  exists m' j, cron_enqueue c ex data hash t n (mem_enqueue now) m = (m', ROk (m_next_id m))
    /\ jobs_of m' = jobs_of m ++ [j]
    /\ j_scheduled_at j = n /\ j_executor j = ex_name ex /\ j_data j = v /\ j_metadata j = JNull
    /\ j_max_attempts j = ex_max_attempts ex /\ j_status j = Scheduled /\ j_attempt j = 0
    /\ j_tags j = [] /\ j_priority j = 0 /\ j_inserted_at j = now.
Proof.
  intros D M c ex data hash t n now m v Hp Hv.
  assert (He : exists e, request c ex (cron_builder data hash t n) = Some e
            /\ eq_scheduled_at e = n /\ eq_executor e = ex_name ex /\ eq_data e = v /\ eq_metadata e = JNull
            /\ eq_max_attempts e = ex_max_attempts ex /\ eq_tags e = [] /\ eq_priority e = 0).
  { unfold request, cron_builder. cbn. rewrite Hv. eexists. split; [reflexivity|]. cbn. auto 10. }
  destruct He as [e [He [H1 [H2 [H3 [H4 [H5 [H6 H7]]]]]]]].
  destruct (cron_adds c ex data hash t now n m e Hp He) as [m' [Hc [_ Hj]]].
  exists m', (new_job now (m_next_id m) e). split; [exact Hc|]. split; [exact Hj|]. cbn. auto 10.
Qed.
Print Assumptions C43_job.

(** ... and data that cannot be serialized leaves the store as it was. *)
Theorem C43_no_job : forall D M (c : codec D M) ex data hash t n S f (s : S),
  enc_data c data = None -> cron_enqueue c ex data hash t n f s = (s, RErr EncodeError).
Proof.
  intros D M c ex data hash t n S f s H. unfold cron_enqueue, enqueue_to, request, cron_builder. cbn.
  rewrite H. reflexivity.
Qed.
Print Assumptions C43_no_job.

(** The criteria a tick uses: same executor and same data hash, scheduled within zero time, still
    scheduled, and a conflict is left alone. *)
Theorem C43_criteria : forall D M (c : codec D M) ex data hash t n e,
  request c ex (cron_builder data hash t n) = Some e ->
  exists uq, eq_criteria e = Some uq /\ uc_key uq = Some (as_i64 hash) /\ uc_executor uq = true
    /\ uc_duration uq = Some 0 /\ uc_statuses uq = [Scheduled] /\ uc_on_conflict uq = DoNothing.
Proof.
  intros D M c ex data hash t n e. unfold request, cron_builder. cbn.
  destruct (enc_data c data); [|discriminate]. cbn. intro H. injection H as <-.
  eexists. split; [reflexivity|]. auto.
Qed.
Print Assumptions C43_criteria.

(** Every whole second; instants are in nanoseconds. *)
Definition each_second (t : time) : option time := Some ((t / ns_per_s + 1) * ns_per_s).
Definition whole_second (t : time) : Prop := exists k, t = k * ns_per_s.
Lemma each_second_answers : answers whole_second each_second.
Proof.
  intro c. cbn. assert (Hpos : 0 < ns_per_s) by reflexivity.
  pose proof (Z.mul_div_le c ns_per_s Hpos). pose proof (Z.mul_succ_div_gt c ns_per_s Hpos).
  split; [eexists; reflexivity|]. split; [lia|]. intros i [k ->] Hi.
  assert (c / ns_per_s < k) by (apply Z.div_lt_upper_bound; lia). nia.
Qed.
(** A run over second 1, an enqueue that takes 2.5 seconds, and then second 4: seconds 2 and 3 are
    slept through. *)
Definition tick_sample : list tick_event :=
  [ Compute 3 4; Wake 990000004; Acted 990000100 false; Rested 1000000000;
    Compute 1000000007 1000000008; Wake 1995000000; Acted 4495000000 false;
    Compute 4495000001 4495000001; Wake 4990000001 ].
Example C43_example :
  exists s, tick_run each_second (ticker_start 0) tick_sample = Some s
    /\ actions s = [(990000004, 1 * ns_per_s); (1995000000, 2 * ns_per_s); (4990000001, 5 * ns_per_s)]
    /\ whole_second (2 * ns_per_s)
    /\ tk_phase s = Acting (5 * ns_per_s).
Proof. eexists. split; [vm_compute; reflexivity|]. split; [reflexivity|]. split; [exists 2; reflexivity | reflexivity]. Qed.
Example C43_example_mem :
  enc_data text_codec "x"%string = Some (JStr "x"%string)
  /\ jobs_for mail 500 (jobs_of (fst (cron_enqueue text_codec mailer "x"%string 17 100 500 (mem_enqueue 490) mem_init)))
     <> [].
Proof. split; [reflexivity | vm_compute; discriminate]. Qed.

(** * C44 Cron jobs across nodes *)

(** Each node's tick at instant [n]: its two clock readings. *)
Fixpoint nodes_tick {D M} (c : codec D M) ex data hash n (nodes : list (time * time)) (m : mem) : mem :=
  match nodes with
  | [] => m
  | (t, now) :: nodes' =>
      nodes_tick c ex data hash n nodes' (fst (cron_enqueue c ex data hash t n (mem_enqueue now) m))
  end.

(** On the in-memory backend every tick of every node adds a job, whatever is already stored:
    a zero window matches nothing. *)
Theorem C44_in_memory_all_added : forall D M (c : codec D M) ex data hash n v nodes m,
  m_poisoned m = false -> enc_data c data = Some v ->
  length (jobs_for (ex_name ex) n (jobs_of (nodes_tick c ex data hash n nodes m)))
  = (length (jobs_for (ex_name ex) n (jobs_of m)) + length nodes)%nat.
Proof.
  intros D M c ex data hash n v nodes. induction nodes as [|[t now] nodes IH]; intros m Hp Hv; cbn [nodes_tick length].
  - lia.
  - assert (He : exists e, request c ex (cron_builder data hash t n) = Some e
              /\ eq_scheduled_at e = n /\ eq_executor e = ex_name ex).
    { unfold request, cron_builder. cbn. rewrite Hv. eexists. split; [reflexivity|]. auto. }
    destruct He as [e [He [H1 H2]]].
    destruct (cron_adds c ex data hash t now n m e Hp He) as [m' [Hc [Hp' Hj]]].
    rewrite Hc. cbn [fst]. rewrite IH by assumption. rewrite Hj. unfold jobs_for.
    rewrite filter_app, app_length. cbn. rewrite H1, H2, String.eqb_refl, Z.eqb_refl. cbn. lia.
Qed.
Print Assumptions C44_in_memory_all_added.

(** So two nodes give two jobs for one instant. *)
Theorem C44_one_job_refuted :
  exists m n, m = nodes_tick text_codec mailer "report"%string 17 n [(90, 91); (92, 93)] mem_init
    /\ length (jobs_for mail n (jobs_of m)) = 2%nat
    /\ forall j, In j (jobs_for mail n (jobs_of m)) -> j_data j = JStr "report"%string /\ j_status j = Scheduled.
Proof.
  eexists. exists (1 * ns_per_s). split; [reflexivity|]. split; [vm_compute; reflexivity|].
  intros j Hj. vm_compute in Hj. destruct Hj as [<-|[<-|[]]]; auto.
Qed.
Print Assumptions C44_one_job_refuted.

(** * C45 Pruner *)

(** The configured rules are those given, in order; the limit is the last one given, or ten. *)
Theorem C45_config : forall calls,
  pc_pruners (fold_left apply_config calls config_new) = map prune_spec_of (named_pruners calls)
  /\ (forall pre l post, calls = pre ++ CfgConcurrency l :: post ->
        (forall l', ~ In (CfgConcurrency l') post) ->
        pc_max_concurrency (fold_left apply_config calls config_new) = l)
  /\ ((forall l, ~ In (CfgConcurrency l) calls) ->
        pc_max_concurrency (fold_left apply_config calls config_new) = Some 10).
Proof.
  intro calls. split; [rewrite config_fold; reflexivity|].
  assert (Hk : forall post c, (forall l', ~ In (CfgConcurrency l') post) ->
             pc_max_concurrency (fold_left apply_config post c) = pc_max_concurrency c).
  { induction post as [|call post IH]; intros c H; cbn; [reflexivity|].
    rewrite IH by (intros l' Hl; apply (H l'); right; exact Hl).
    destruct call as [l|p|l]; [destruct (H l (or_introl eq_refl)) | reflexivity | reflexivity]. }
  split.
  - intros pre l post -> Hn. rewrite fold_left_app. cbn. rewrite Hk by exact Hn. reflexivity.
  - intro Hn. rewrite Hk by exact Hn. reflexivity.
Qed.
Print Assumptions C45_config.

(** When a firing is over, the backend was called once for each rule, in order, and each rule ended
    with what its call returned; this holds whatever the calls returned. *)
Theorem C45_every_rule : forall c es s,
  firing_run (firing_start c) es = Some s -> firing_over s = true ->
  f_calls s = seq 0 (length (pc_pruners c))
  /\ forall i, (i < length (pc_pruners c))%nat -> exists r, In (Finish i r) es /\ nth_error (f_rules s) i = Some (Done r).
Proof.
  intros c es s Hr Ho.
  destruct (firing_run_started es 0 _ s (started_start c) Hr) as [Hl [n [_ Hst]]].
  assert (Hlen : length (f_rules s) = length (pc_pruners c)) by (rewrite Hl; cbn; apply map_length).
  split; [rewrite <- Hlen; eapply over_all_called; eassumption|].
  intros i Hi. destruct (over_done s i Ho ltac:(lia)) as [r H]. exists r. split; [|exact H].
  destruct (firing_results es _ s i r Hr H) as [H0|H0]; [|exact H0].
  cbn in H0. rewrite nth_error_map in H0. destruct (nth_error (pc_pruners c) i); discriminate.
Qed.
Print Assumptions C45_every_rule.

(** At any moment the calls made are the rules from the first on, none twice... *)
Theorem C45_in_rule_order : forall c es s,
  firing_run (firing_start c) es = Some s ->
  exists n, (n <= length (pc_pruners c))%nat /\ f_calls s = seq 0 n.
Proof.
  intros c es s Hr. destruct (firing_run_started es 0 _ s (started_start c) Hr) as [Hl [n [_ [Hc [Hn _]]]]].
  exists n. split; [|exact Hc]. rewrite Hl in Hn. cbn in Hn. rewrite map_length in Hn. exact Hn.
Qed.
Print Assumptions C45_in_rule_order.

(** ... and no pattern of errors keeps the firing from completing. *)
Theorem C45_failures_do_not_stop : forall c es s r,
  firing_run (firing_start c) es = Some s -> f_crashed s = false -> (forall i, r i <> Panic) ->
  exists es' s', firing_run s es' = Some s' /\ firing_over s' = true
    /\ f_calls s' = seq 0 (length (pc_pruners c)) /\ forall i x, In (Finish i x) es' -> x = r i.
Proof.
  intros c es s r Hr Hc Hp. destruct (firing_completes r Hp _ s (le_n _) Hc) as [es' [s' [H1 [H2 [_ H3]]]]].
  exists es', s'. split; [exact H1|]. split; [exact H2|]. split; [|exact H3].
  destruct (firing_run_started es 0 _ s (started_start c) Hr) as [Hl [n [_ Hst]]].
  destruct (firing_run_started es' n s s' Hst H1) as [Hl' [n' [_ Hst']]].
  rewrite (over_all_called n' s' Hst' H2), Hl', Hl. cbn. rewrite map_length. reflexivity.
Qed.
Print Assumptions C45_failures_do_not_stop.

Definition three_rules : pruner_config :=
  fold_left apply_config
    [ CfgPruner (eval_pruner (PAll (LimAge 100) Complete)); CfgConcurrency (Some 1);
      CfgPruners [eval_pruner (POnly (LimLength 2) Discarded mail [push]);
                  eval_pruner (PExcept (LimLength 2) Cancelled mail [])] ] config_new.
Example C45_example :
  pc_max_concurrency three_rules = Some 1
  /\ exists s, firing_run (firing_start three_rules)
                [Poll_next; Finish 0 (Err Io); Poll_next; Poll_next; Finish 2 (Err BadState); Finish 1 (Ok tt)] = Some s
     /\ firing_over s = true /\ f_crashed s = false.
Proof. split; [reflexivity|]. eexists. split; [vm_compute; reflexivity|]. auto. Qed.

(** The limit does not bound the number of rules run at once. *)
Theorem C45_limit_refuted :
  exists c es s limit, pc_max_concurrency c = Some limit
    /\ firing_run (firing_start c) es = Some s
    /\ exists l, NoDup l /\ limit < Z.of_nat (length l) /\ forall i, In i l -> nth_error (f_rules s) i = Some Running.
Proof.
  exists three_rules, [Poll_next; Poll_next; Poll_next]. eexists. exists 1.
  split; [reflexivity|]. split; [vm_compute; reflexivity|]. exists [0; 1; 2]%nat.
  split; [repeat constructor; cbn; intuition discriminate|]. split; [reflexivity|].
  intros i [<-|[<-|[<-|[]]]]; reflexivity.
Qed.
Print Assumptions C45_limit_refuted.

(** A rule whose call panics ends the pruner: nothing more happens, and the rules not yet started never
    run. *)
Theorem C45_panic_ends : forall s i s', firing_step s (Finish i Panic) = Some s' ->
  f_crashed s' = true /\ f_calls s' = f_calls s /\ forall es s2, firing_run s' es = Some s2 -> s2 = s'.
Proof.
  intros s i s' H. unfold firing_step in H. destruct (f_crashed s); [discriminate|].
  destruct (nth_error (f_rules s) i) as [[| |]|]; try discriminate. injection H as <-.
  split; [reflexivity|]. split; [reflexivity|]. intros [|e es] s2 Hr; cbn in Hr; [congruence|discriminate].
Qed.
Print Assumptions C45_panic_ends.
Example C45_panic_ends_example :
  exists s s', firing_run (firing_start three_rules) [Poll_next; Poll_next] = Some s /\ firing_step s (Finish 0 Panic) = Some s'
    /\ f_calls s' = [0; 1]%nat.
Proof. do 2 eexists. split; [vm_compute; reflexivity|]. split; vm_compute; reflexivity. Qed.

(** On the in-memory backend a firing applies the rules one after the other, as long as no age
    limit leaves the range of dates. *)
Theorem C45_in_memory_partial : forall p now m rules,
  (forall ps, In ps rules -> age_in_range now ps) ->
  prune_all now m rules = (mem_run p m (map (fun ps => (now, OpPrune ps)) rules), false).
Proof. intros p now m rules. apply prune_all_runs. Qed.
Print Assumptions C45_in_memory_partial.

(** A rule with a huge age limit panics: the later rules are not applied and the pruner is dead. *)
Theorem C45_panic_stops_refuted :
  exists h m now rules ps m' j,
    reached Debug h m /\ In ps rules /\ prune_all now m rules = (m', true)
    /\ In j (jobs_of (fst (prune_all now m rules)))
    /\ ~ In j (jobs_of (fst (mem_step Debug now m (OpPrune ps)))).
Proof.
  exists [(1, OpEnqueue (req mail 0 5))]. eexists.
  exists 10, [mk_prune_spec Complete (MaxAge delta_max) (Except []); mk_prune_spec Scheduled (MaxAge 1) (Except [])],
    (mk_prune_spec Scheduled (MaxAge 1) (Except [])).
  eexists. eexists.
  split; [split; [vm_compute; reflexivity | vm_compute; discriminate]|].
  split; [right; left; reflexivity|]. split; [vm_compute; reflexivity|].
  split; [vm_compute; left; reflexivity | vm_compute; intros []].
Qed.
Print Assumptions C45_panic_stops_refuted.
