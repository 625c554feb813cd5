(** Lemmas about what a program on in-memory backends can always do next. *)
From Coq Require Import Lia Permutation.
From Verif Require Import Base Chrono Types Query Memory MemSpec MemProofs MemHist2 MemNotify MemConc MemConcSpec MemConcProofs MemConcThms MemWake
  Codec Builder Runner RunnerSpec WorkerProofs Ticker Pruner ApiProofs App AppSpec AppProofs AppEnd PropsApp World WorldSpec WorldProofs WorldInv WorldThms.

(** * Stores *)

(** How many steps a call has left. *)
Definition steps_left (c : call) : nat :=
  match cl_pc c with
  | PcStart => 4 | PcDraw => 3 | PcPush _ => 2 | PcNotify _ | PcWriteBack _ => 1 | PcDone _ => 0
  end.

Lemma call_step_left p i now m c m' c' ev : (steps_left c = 4 \/ steps_left c = 0 \/ is_enq (cl_op c) = true)%nat ->
  call_step p i now m c = (m', c', ev) ->
  (steps_left c' = 4 \/ steps_left c' = 0 \/ is_enq (cl_op c') = true)%nat
  /\ (steps_left c' <= pred (steps_left c))%nat /\ cl_op c' = cl_op c.
Proof.
  intros Hok H. unfold call_step in H. destruct c as [o pc0 cid]. unfold steps_left in *. cbn [cl_pc cl_op cl_id] in *.
  destruct pc0 as [| |id|id|j|r], o; cbn [is_enq] in Hok; try (destruct Hok as [?|[?|?]]; discriminate);
    repeat match type of H with
      | context [match ?x with _ => _ end] => destruct x
      | context [let (_, _) := ?x in _] => destruct x
      end; injection H as <- <- <-; cbn [cl_pc cl_op is_enq];
    (split; [auto|split; [cbn; lia|reflexivity]]).
Qed.

Lemma mid_enq p ls c : In c (c_calls (conc_run p c_init ls)) -> (steps_left c = 4 \/ steps_left c = 0 \/ is_enq (cl_op c) = true)%nat.
Proof.
  revert c. induction ls as [|l ls IH] using rev_ind; intros c Hc; [destruct Hc|].
  rewrite conc_run_app in Hc. cbn [conc_run] in Hc. set (s := conc_run p c_init ls) in *.
  destruct l as [o|i now|ex|k now|k]; cbn [conc_step] in Hc.
  - assert (K : In c (c_calls s ++ [mk_call o PcStart None]) \/ In c (c_calls s)) by (destruct o; cbn in Hc; auto).
    destruct K as [K|K]; [|eauto]. apply in_app_or in K. destruct K as [K|[<-|[]]]; [eauto|left; reflexivity].
  - destruct (nth_error (c_calls s) i) as [c0|] eqn:En; [|eauto].
    destruct (call_step p i now (c_mem s) c0) as [[m' c'] ev] eqn:Ec. cbn [fst c_calls] in Hc.
    apply in_set_nth in Hc. destruct Hc as [->|Hc]; [|eauto].
    exact (proj1 (call_step_left _ _ _ _ _ _ _ _ (IH c0 (nth_error_In _ _ En)) Ec)).
  - eauto.
  - destruct (nth_error (c_streams s) k); [|eauto]. destruct (nth_error (m_subs (c_mem s)) k); [|eauto].
    destruct (stream_step p k now (c_mem s) s1 s0) as [[m' ph'] ev]. eauto.
  - destruct (nth_error (c_streams s) k) as [[]|]; eauto. destruct (nth_error (m_subs (c_mem s)) k) as [sb|]; [|eauto].
    destruct (sub_queue sb); eauto.
Qed.

(** A poisoned store stays so. *)
Lemma call_step_poisoned p i now m c m' c' ev : m_poisoned m = true -> call_step p i now m c = (m', c', ev) -> m_poisoned m' = true.
Proof.
  intros Hp H. unfold call_step in H. destruct c as [o pc0 cid]. cbn [cl_pc cl_op cl_id] in H.
  assert (Hs : m_poisoned (fst (mem_step p now m o)) = true) by apply (mem_step_poisoned p now m o Hp).
  destruct pc0 as [| |id|id|j|r].
  - destruct (is_enq o) eqn:Eo.
    + destruct o as [e| | | | | | | | | | | | |]; try discriminate Eo. clear Hs. cbn iota in H.
      destruct (eq_criteria e); [|injection H as <- <- <-; exact Hp]. destruct (matching_jobs _ m) as [[|? ?]| |]; injection H as <- <- <-; exact Hp.
    + destruct o; try discriminate Eo; cbn iota in H;
      match type of H with context [mem_step p now m ?x] => destruct (mem_step p now m x) as [m1 r1] end; injection H as <- <- <-; exact Hs.
  - destruct o; injection H as <- <- <-; exact Hp.
  - destruct o; try (injection H as <- <- <-; exact Hp). rewrite Hp in H. injection H as <- <- <-. exact Hp.
  - destruct o; injection H as <- <- <-; try exact Hp. rewrite notify_poisoned. exact Hp.
  - destruct o; try (injection H as <- <- <-; exact Hp). unfold mem_update, with_job in H. rewrite Hp in H. injection H as <- <- <-. exact Hp.
  - destruct o; injection H as <- <- <-; exact Hp.
Qed.

(** A stream that has panicked did so on a poisoned store, or has poisoned it. *)
Lemma dead_poisoned p ls k : let s := conc_run p c_init ls in nth_error (c_streams s) k = Some SDead -> m_poisoned (c_mem s) = true.
Proof.
  cbn zeta. revert k. induction ls as [|l ls IH] using rev_ind; intros k Hk; [destruct k; discriminate|].
  rewrite conc_run_app in *. cbn [conc_run] in *. set (s := conc_run p c_init ls) in *.
  destruct l as [o|i now|ex|k' now|k']; cbn [conc_step] in *.
  - assert (E : c_mem (fst (match o with OpLoad _ | OpSubscribe _ => (s, []) | _ => (mk_c (c_mem s) (c_calls s ++ [mk_call o PcStart None]) (c_streams s), @nil cevent) end)) = c_mem s)
      by (destruct o; reflexivity).
    assert (E2 : c_streams (fst (match o with OpLoad _ | OpSubscribe _ => (s, []) | _ => (mk_c (c_mem s) (c_calls s ++ [mk_call o PcStart None]) (c_streams s), @nil cevent) end)) = c_streams s)
      by (destruct o; reflexivity).
    destruct o; cbn in *; eauto.
  - destruct (nth_error (c_calls s) i) as [c0|]; [|eauto].
    destruct (call_step p i now (c_mem s) c0) as [[m' c'] ev] eqn:Ec. cbn in *. eapply call_step_poisoned; [|exact Ec]. eauto.
  - cbn in *. destruct (Nat.lt_ge_cases k (length (c_streams s))) as [Hl|Hl].
    + rewrite nth_error_app1 in Hk by exact Hl. unfold mem_subscribe. cbn. eauto.
    + rewrite nth_error_app2 in Hk by exact Hl. destruct (k - length (c_streams s))%nat as [|[|?]]; discriminate.
  - destruct (nth_error (c_streams s) k') as [ph|] eqn:Ek; [|eauto]. destruct (nth_error (m_subs (c_mem s)) k') as [sb|]; [|eauto].
    destruct (stream_step p k' now (c_mem s) sb ph) as [[m' ph'] ev] eqn:Es. cbn in *.
    assert (Hmono : m_poisoned (c_mem s) = true -> m_poisoned m' = true).
    { intro Hp. unfold stream_step in Es. destruct ph; try (injection Es as <- <- <-; exact Hp).
      - destruct (next_available _ _); injection Es as <- <- <-; exact Hp.
      - unfold mem_load in Es. rewrite Hp in Es. injection Es as <- <- <-. exact Hp. }
    destruct (Nat.eq_dec k k') as [->|Hne].
    + rewrite (nth_set_same _ _ _ _ Ek) in Hk. injection Hk as ->.
      destruct (m_poisoned (c_mem s)) eqn:Hp; [auto|].
      unfold stream_step in Es. destruct ph; try discriminate.
      * unfold next_available, mem_query, matching_jobs in Es. rewrite Hp in Es. discriminate.
      * destruct (_ <=? _); discriminate.
      * pose proof (mem_load_spec p now (c_mem s) (sub_executor sb) Hp) as L.
        destruct (mem_load p now (c_mem s) (sub_executor sb)) as [m1 [[j|]|err|]]; try discriminate.
        injection Es as <- <-. destruct L as [-> _]. reflexivity.
      * destruct (_ <=? _); discriminate.
      * pose proof (IH _ Ek). congruence.
    + rewrite nth_set_nth_other in Hk by congruence. exact (Hmono (IH _ Hk)).
  - destruct (nth_error (c_streams s) k') as [ph|] eqn:Ek; [|eauto]. destruct ph; eauto.
    destruct (nth_error (m_subs (c_mem s)) k') as [sb|]; [|eauto]. destruct (sub_queue sb); [eauto|]. cbn in *.
    destruct (Nat.eq_dec k k') as [->|Hne].
    + rewrite (nth_set_same _ _ _ _ Ek) in Hk. discriminate.
    + rewrite nth_set_nth_other in Hk by congruence. eauto.
Qed.

(** A call that has returned is not touched again. *)
Lemma done_stays p s l k c r : nth_error (c_calls s) k = Some c -> cl_pc c = PcDone r ->
  nth_error (c_calls (fst (conc_step p s l))) k = Some c.
Proof.
  intros Hk Hr. destruct l as [o|i now|ex|k' now|k']; cbn [conc_step].
  - destruct o; cbn [fst c_calls]; try exact Hk; rewrite nth_error_app1; try exact Hk; eapply nth_lt; exact Hk.
  - destruct (nth_error (c_calls s) i) as [c0|] eqn:En; [|exact Hk].
    destruct (call_step p i now (c_mem s) c0) as [[m' c'] ev] eqn:Ec. cbn [fst c_calls].
    destruct (Nat.eq_dec i k) as [->|Hne].
    + assert (c0 = c) as -> by congruence. unfold call_step in Ec. rewrite Hr in Ec.
      assert (c' = c) as -> by (destruct (cl_op c); congruence). exact (nth_set_same _ _ _ _ En).
    + rewrite nth_set_nth_other by congruence. exact Hk.
  - exact Hk.
  - destruct (nth_error (c_streams s) k'); [|exact Hk]. destruct (nth_error (m_subs (c_mem s)) k'); [|exact Hk].
    destruct (stream_step p k' now (c_mem s) s1 s0) as [[m' ph'] ev]. exact Hk.
  - destruct (nth_error (c_streams s) k') as [[]|]; try exact Hk. destruct (nth_error (m_subs (c_mem s)) k') as [sb|]; [|exact Hk].
    destruct (sub_queue sb); exact Hk.
Qed.

(** * Flights *)
Lemma flight_app n l l' ph : flight_of n l = Some ph -> flight_of n (l ++ l') = Some ph.
Proof. induction l as [|[k q] l IH]; cbn; [discriminate|]. destruct (Nat.eqb k n); auto. Qed.
Lemma flight_set_other n k ph : k <> n -> forall l, flight_of n (set_flight k ph l) = flight_of n l.
Proof.
  intro Hne. induction l as [|[j q] l IH]; [reflexivity|]. cbn [set_flight flight_of].
  destruct (Nat.eqb_spec j k) as [->|H1].
  - destruct (Nat.eqb_spec k n) as [|_]; [contradiction|]. destruct ph; cbn [flight_of]; [|reflexivity].
    destruct (Nat.eqb_spec k n); [contradiction|reflexivity].
  - cbn [flight_of]. destruct (Nat.eqb j n); auto.
Qed.

Section Ends.
  Context {Schedule Zone : Type}.
  Variable utc : Zone.
  Variable upcoming : Schedule -> Zone -> time -> option time.
  Variable show : Z -> string.
  Variable hash : forall e : executor, xe_data e -> Z.
  Variable p : profile.
  Notation world := (world Schedule Zone).
  Notation tsk := (task Schedule Zone).
  Notation wstep e := (worker_step (xe_codec e) (xe_fns e) show (ex_max_concurrency (xe_consts e))).
  Notation onp := (on_process utc upcoming show).
  Notation ons := (on_store (Schedule := Schedule) (Zone := Zone) p).
  Notation vstep := (world_step utc upcoming show hash p).
  Notation vrun := (world_run utc upcoming show hash p).

  (** The task may still be waiting for the calls of its turn [n], or has died. *)
  Definition pending (t : tsk) (n : nat) : Prop :=
    died t \/ match ta_body t with
    | BWorker _ wk => exists op, flight_of n (w_flights wk) = Some (FReporting op)
    | BCron _ _ _ _ k | BPruner _ _ k => n = length (tk_fired k) /\ exists m, tk_phase k = Acting m
    end.
  (** Call [c] of task [i] has returned. *)
  Definition returned (w : world) (i c : nat) : Prop := exists x r, call_at w i c = Some x /\ cl_pc x = PcDone r.
  Definition covered (w : world) (a : ask) : Prop :=
    exists t, nth_error (pr_tasks (wd_process w)) (ak_task a) = Some t
      /\ (pending t (ak_turn a) \/ returned w (ak_task a) (ak_call a)).
  Definition all_covered (w : world) : Prop := forall a, In a (wd_asks w) -> covered w a.

  Lemma ons_returned now b l (w w' : world) i c : ons now b l w = Some w' -> returned w i c -> returned w' i c.
  Proof.
    intros H [x [r [H1 H2]]]. exists x, r. split; [|exact H2]. destruct (ons_stores p _ _ _ _ _ H) as [Ep [s [Es Est]]].
    unfold call_at in *. rewrite Ep, Est. destruct (nth_error (pr_tasks (wd_process w)) i) as [t|]; [|discriminate].
    destruct (Nat.eq_dec b (ta_backend t)) as [->|Hne].
    - rewrite Es in H1. rewrite (nth_set_same _ _ _ _ Es). eapply done_stays; eassumption.
    - rewrite nth_set_nth_other by congruence. exact H1.
  Qed.
  Lemma ons_asks now b l (w w' : world) : ons now b l w = Some w' -> wd_asks w' = wd_asks w.
  Proof. unfold on_store. destruct (nth_error (wd_stores w) b); [|discriminate]. intro H. injection H as <-. reflexivity. Qed.

  Lemma ons_covered now b l (w w' : world) a : ons now b l w = Some w' -> covered w a -> covered w' a.
  Proof.
    intros H [t [H1 H2]]. destruct (ons_stores p _ _ _ _ _ H) as [Ep _]. exists t. rewrite Ep. split; [exact H1|].
    destruct H2 as [H2|H2]; [left; exact H2|right; eapply ons_returned; eassumption].
  Qed.
  Lemma ons_all now b l (w w' : world) : ons now b l w = Some w' -> all_covered w -> all_covered w'.
  Proof. intros H K a Ha. rewrite (ons_asks _ _ _ _ _ H) in Ha. eapply ons_covered; eauto. Qed.

  Lemma ask_all_covered now i n b t : forall l (w w' : world), ask_all p now i n b l w = Some w' ->
    nth_error (pr_tasks (wd_process w)) i = Some t -> pending t n -> all_covered w -> all_covered w'.
  Proof.
    induction l as [|o l IH]; intros w w' H Ht Hp K; cbn [ask_all] in H; [injection H as <-; exact K|].
    unfold ask_for in H. destruct (nth_error (wd_stores w) b) as [s|]; [|discriminate].
    destruct (ons now b (LCall o) w) as [w1|] eqn:E1; [|discriminate].
    destruct (ons_stores p _ _ _ _ _ E1) as [Ep _].
    eapply IH; [exact H|cbn [wd_process]; rewrite Ep; exact Ht|exact Hp|].
    intros a Ha. cbn [wd_asks] in Ha. apply in_app_or in Ha. destruct Ha as [Ha|[<-|[]]].
    - destruct (ons_all _ _ _ _ _ E1 K a Ha) as [t' [A1 A2]]. exists t'. split; [exact A1|exact A2].
    - exists t. cbn [wd_process ak_task ak_turn]. rewrite Ep. auto.
  Qed.
  Lemma connect_covered now : forall l (w w' : world), connect_all p now l w = Some w' -> all_covered w -> all_covered w'.
  Proof.
    induction l as [|t l IH]; intros w w' H K; cbn [connect_all] in H; [injection H as <-; exact K|].
    unfold connect in H. destruct (ta_body t).
    - destruct (nth_error (wd_stores w) (ta_backend t)); [|discriminate].
      destruct (ons now (ta_backend t) (LSubscribe (ex_name (xe_consts e))) w) as [w1|] eqn:E1; [|discriminate].
      eapply IH; [exact H|]. intros a Ha. destruct (ons_all _ _ _ _ _ E1 K a Ha) as [t' [A1 A2]]. exists t'. split; [exact A1|exact A2].
    - eapply IH; [exact H|]. intros a Ha. destruct (K a Ha) as [t' [A1 A2]]. exists t'. split; [exact A1|exact A2].
    - eapply IH; [exact H|]. intros a Ha. destruct (K a Ha) as [t' [A1 A2]]. exists t'. split; [exact A1|exact A2].
  Qed.

  (** A task's own step leaves it waiting, unless the calls were answered. *)
  Lemma worker_pending t ev t' n : worker_task_step show t ev = Some t' -> pending t n ->
    pending t' n \/ exists r, ev = WReported n r.
  Proof.
    unfold worker_task_step, pending, died. destruct t as [tb tk [e wk|e sc z data k|sc cfg k]]; cbn [ta_body ta_backend ta_token];
      [|destruct ev; discriminate..].
    intros H Hp. destruct (wstep e wk ev) as [wk'|] eqn:Es; [|destruct ev; discriminate].
    assert (t' = mk_task tb tk (BWorker e wk')) as -> by (destruct ev; congruence). cbn [ta_body]. clear H.
    unfold worker_step in Es. destruct (w_life wk) eqn:El; try discriminate.
    destruct Hp as [Hp|[op Hp]]; [discriminate|].
    assert (Hoth : forall m ph obs, (forall q, flight_of m (w_flights wk) = Some q -> q <> FReporting op) -> flight_of m (w_flights wk) <> None ->
              exists op0, flight_of n (w_flights (progress m ph obs wk)) = Some (FReporting op0)).
    { intros m ph obs Hq Hsome. exists op. cbn [progress w_flights]. rewrite flight_set_other; [exact Hp|].
      intros ->. exact (Hq _ Hp eq_refl). }
    destruct ev as [m|m| | | | |m|m n1 n2 o|m r|].
    - destruct (w_transit wk); [discriminate|]. destruct (may_poll _ wk); [|discriminate]. injection Es as <-.
      left. right. exists op. cbn. apply flight_app, Hp.
    - destruct (w_transit wk); [discriminate|]. destruct (may_poll _ wk); [|discriminate]. injection Es as <-. left. right. exists op. exact Hp.
    - destruct (w_transit wk); [|discriminate]. destruct (may_poll _ wk); [|discriminate]. injection Es as <-.
      left. right. exists op. cbn. apply flight_app, Hp.
    - destruct (w_transit wk); [discriminate|]. destruct (may_poll _ wk); [|discriminate]. injection Es as <-. left. left. reflexivity.
    - injection Es as <-. left. right. exists op. exact Hp.
    - destruct (_ && _ && _); [|discriminate]. injection Es as <-. left. right. exists op. exact Hp.
    - left. destruct (flight_of m (w_flights wk)) as [[[j|err]|x|o]|] eqn:Ef; try discriminate.
      + destruct (begin_job (xe_codec e) (xe_fns e) j); injection Es as <-;
          [right; apply Hoth; congruence|right; apply Hoth; congruence|left; reflexivity].
      + injection Es as <-. right. apply Hoth; congruence.
    - left. destruct (flight_of m (w_flights wk)) as [[mm|x|o']|] eqn:Ef; try discriminate.
      assert (Hmn : m <> n) by congruence.
      assert (K : (exists w1, wk' = crash w1) \/ exists op', wk' = progress m (Some (FReporting op')) [Reported m op'] (progress m (Some (FExecuting x)) [Outcome m o] wk)).
      { destruct o; try (destruct (report show n1 n2 x _); injection Es as <-; eauto; fail).
        destruct (x_timeout x); [|discriminate]. destruct (report show n1 n2 x _); injection Es as <-; eauto. }
      destruct K as [[w1 ->]|[op' ->]]; [left; reflexivity|]. right. exists op. cbn [progress w_flights].
      rewrite !flight_set_other by exact Hmn. exact Hp.
    - destruct (Nat.eq_dec m n) as [->|Hne]; [right; eauto|]. left.
      destruct (flight_of m (w_flights wk)) as [[mm|x|o']|] eqn:Ef; try discriminate.
      assert (K : wk' = crash wk \/ wk' = progress m None [] wk) by (destruct r; injection Es as <-; auto).
      destruct K as [->| ->]; [left; reflexivity|]. right. exists op. cbn [progress w_flights]. rewrite flight_set_other by exact Hne. exact Hp.
    - destruct (w_open wk); [discriminate|]. destruct (w_flights wk); [|discriminate]. discriminate Hp.
  Qed.
  Lemma tick_pending stop t ev t' n : tick_task_step utc upcoming stop t ev = Some t' -> pending t n ->
    pending t' n \/ exists c, ev = Acted c false /\ n = length (firings (ta_body t)).
  Proof.
    unfold tick_task_step, pending, died. intros H Hp.
    assert (G : forall up k k', tick_step up k ev = Some k' ->
              (tk_phase k = Crashed \/ n = length (tk_fired k) /\ exists m, tk_phase k = Acting m) ->
              (tk_phase k' = Crashed \/ n = length (tk_fired k') /\ exists m, tk_phase k' = Acting m)
              \/ exists c, ev = Acted c false /\ n = length (tk_fired k)).
    { intros up k k' Hs [Hc|[Hn [m Hm]]]; unfold tick_step in Hs.
      - rewrite Hc in Hs. destruct ev; discriminate.
      - rewrite Hm in Hs. destruct ev as [| | |c pa|]; try discriminate. destruct (tk_clock k <=? c); [|discriminate].
        destruct pa; [injection Hs as <-; left; left; reflexivity|]. right. exists c. auto. }
    destruct t as [tb tk [e wk|e sc z data k|sc cfg k]]; cbn [ta_body ta_backend ta_token] in *.
    - destruct ev; try destruct stop; discriminate.
    - destruct (tick_step (upcoming sc z) k ev) as [k'|] eqn:Es; [|destruct ev; try destruct stop; discriminate].
      assert (t' = mk_task tb tk (BCron e sc z data k')) as -> by (destruct ev; try destruct stop; congruence). exact (G _ _ _ Es Hp).
    - destruct (tick_step (upcoming sc utc) k ev) as [k'|] eqn:Es; [|destruct ev; try destruct stop; discriminate].
      assert (t' = mk_task tb tk (BPruner sc cfg k')) as -> by (destruct ev; try destruct stop; congruence). exact (G _ _ _ Es Hp).
  Qed.
  Lemma told_pending h t n : pending t n -> pending (told show h t) n.
  Proof.
    unfold told. destruct (Nat.eqb (ta_token t) h); [|auto]. destruct t as [tb tk [e wk|e sc z data k|sc cfg k]]; cbn [ta_body ta_backend ta_token]; auto.
    unfold worker_step. destruct (w_life wk) eqn:El; auto.
    unfold pending, died. cbn [ta_body w_life w_flights]. rewrite El. auto.
  Qed.

  (** A step of the process keeps every call covered, if a turn is over only when its calls are. *)
  Lemma onp_covered now ev (w w' : world) : onp now ev w = Some w' ->
    (forall i n r a, ev = AWorker i (WReported n r) -> In a (wd_asks w) -> ak_task a = i -> ak_turn a = n -> returned w i (ak_call a)) ->
    (forall i c t a, ev = ATick i (Acted c false) -> nth_error (pr_tasks (wd_process w)) i = Some t -> In a (wd_asks w) -> ak_task a = i ->
       ak_turn a = length (firings (ta_body t)) -> returned w i (ak_call a)) ->
    all_covered w -> all_covered w'.
  Proof.
    intros H Hw Ht K a Ha. unfold on_process in H.
    destruct (app_step utc upcoming show now (wd_process w) ev) as [[s r]|] eqn:E; [|discriminate]. injection H as <-.
    cbn [wd_asks] in Ha. destruct (K a Ha) as [t [H1 H2]].
    destruct (step_task utc upcoming show _ _ _ _ _ _ _ E H1) as [t' [H1' H3]].
    pose proof (step_keeps utc upcoming show _ _ _ _ _ _ _ _ E H1 H1') as [_ [Hb _]].
    exists t'. cbn [wd_process]. split; [exact H1'|].
    assert (Hret : returned w (ak_task a) (ak_call a) -> returned (mk_world s (wd_stores w) (wd_streams w) (wd_asks w) (wd_log w ++ [(now, OnProcess ev)])) (ak_task a) (ak_call a)).
    { intros [x [r0 [A1 A2]]]. exists x, r0. split; [|exact A2]. unfold call_at in *. cbn [wd_process wd_stores]. rewrite H1', Hb. rewrite H1 in A1. exact A1. }
    destruct H2 as [H2|H2]; [|right; exact (Hret H2)].
    destruct H3 as [->|[[_ ->]|[[e [-> H3]]|[e [-> H3]]]]].
    - left. exact H2.
    - left. apply told_pending, H2.
    - destruct (worker_pending _ _ _ _ H3 H2) as [P|[r0 ->]]; [left; exact P|]. right. apply Hret. eapply Hw; eauto.
    - destruct (tick_pending _ _ _ _ _ H3 H2) as [P|[c [-> En]]]; [left; exact P|]. right. apply Hret. eapply Ht; eauto.
  Qed.

  Lemma is_done_returned i n (w : world) a : In a (wd_asks w) -> ak_task a = i -> ak_turn a = n ->
    forallb is_done (replies i n w) = true -> returned w i (ak_call a).
  Proof.
    intros Ha Hi Hn Hf. rewrite replies_at in Hf. rewrite forallb_forall in Hf.
    specialize (Hf (option_map cl_pc (call_at w i (ak_call a)))).
    assert (Hin : In (option_map cl_pc (call_at w i (ak_call a)))
              (map (fun a => option_map cl_pc (call_at w i (ak_call a))) (filter (fun a => Nat.eqb (ak_task a) i && Nat.eqb (ak_turn a) n) (wd_asks w)))).
    { apply in_map_iff. exists a. split; [reflexivity|]. apply filter_In. split; [exact Ha|]. subst. now rewrite !Nat.eqb_refl. }
    specialize (Hf Hin). unfold returned. destruct (call_at w i (ak_call a)) as [x|]; [|discriminate]. exists x.
    cbn in Hf. destruct (cl_pc x) eqn:Ep; try discriminate. eauto.
  Qed.

  Lemma step_covered now w ev w' : vstep now w ev = Some w' -> all_covered w -> all_covered w'.
  Proof.
    intros H K.
    assert (Hp : forall now e (w w' : world), onp now e w = Some w' ->
              match e with AWorker _ (WReported _ _) | ATick _ (Acted _ false) => False | _ => True end -> all_covered w -> all_covered w').
    { intros now0 e w0 w0' H0 Hn K0. eapply onp_covered; [exact H0| | |exact K0]; intros; subst; destruct Hn. }
    destruct ev; cbn [world_step] in H.
    - injection H as <-. intros a Ha. destruct (K a Ha) as [t [A1 A2]]. exists t. split; [exact A1|].
      destruct A2 as [A2|[x [r [B1 B2]]]]; [left; exact A2|right]. exists x, r. split; [|exact B2]. unfold call_at in *. cbn [wd_process wd_stores].
      rewrite A1 in *. destruct (nth_error (wd_stores w) (ta_backend t)) as [s|] eqn:Es; [|discriminate].
      rewrite nth_error_app1 by (eapply nth_lt; exact Es). rewrite Es. exact B1.
    - unfold world_app in H.
      destruct ev; try discriminate;
        try (destruct (onp now _ w) as [w1|] eqn:E; [|discriminate]; eapply connect_covered; [exact H|]; eapply Hp; [exact E|exact Logic.I|exact K]).
      destruct (Nat.ltb _ _); [|discriminate]. eapply Hp; [exact H|exact Logic.I|exact K].
    - eapply ons_all; eassumption.
    - eapply ons_all; eassumption.
    - unfold world_poll in H. destruct (nth_error _ i) as [t|]; [|discriminate]. destruct (nth_error (wd_streams w) i) as [[k|]|]; try discriminate.
      destruct (ta_body t); try discriminate. destruct (polls e w0); [|discriminate].
      destruct (ons now (ta_backend t) (LStream k now) w) as [w1|] eqn:E1; [|discriminate].
      pose proof (ons_all _ _ _ _ _ E1 K) as K1.
      destruct (stream_at (ta_backend t) k w1) as [ph|]; [|injection H as <-; exact K1].
      destruct ph as [| | | | |[j|err|]|]; try (injection H as <-; exact K1); eapply Hp; try exact H; try exact Logic.I; exact K1.
    - unfold world_recv in H. destruct (nth_error _ i) as [t|]; [|discriminate]. destruct (nth_error (wd_streams w) i) as [[k|]|]; try discriminate.
      destruct (ta_body t); try discriminate. destruct (polls e w0); [|discriminate]. eapply ons_all; eassumption.
    - eapply Hp; [exact H|exact Logic.I|exact K].
    - eapply Hp; [exact H|exact Logic.I|exact K].
    - unfold world_end in H. destruct (onp now _ w) as [w1|] eqn:E1; [|discriminate].
      assert (K1 : all_covered w1) by (eapply Hp; [exact E1|exact Logic.I|exact K]).
      destruct (nth_error (pr_tasks (wd_process w1)) i) as [t|] eqn:Et; [|discriminate].
      destruct (ta_body t) as [e wk| |] eqn:Eb; try (injection H as <-; exact K1).
      destruct (flight_of n (w_flights wk)) as [[m|x|op]|] eqn:Ef; try (injection H as <-; exact K1).
      eapply (ask_all_covered now i n (ta_backend t) t [op]); [cbn [ask_all]; rewrite H; reflexivity|exact Et| |exact K1].
      right. rewrite Eb. eauto.
    - unfold world_answer in H. destruct (replies i n w) as [|[[| | | | |r]|] [|]] eqn:Er; try discriminate; destruct r as [|r| |]; try discriminate.
      eapply onp_covered; [exact H| | |exact K]; [|intros; discriminate].
      intros i0 n0 r0 a E Ha Hi Hn. injection E as <- <- <-. apply (is_done_returned i n w a Ha Hi Hn). rewrite Er. reflexivity.
    - eapply Hp; [exact H|exact Logic.I|exact K].
    - eapply Hp; [exact H|exact Logic.I|exact K].
    - unfold world_wake in H. destruct (onp now _ w) as [w1|] eqn:E1; [|discriminate].
      assert (K1 : all_covered w1) by (eapply Hp; [exact E1|exact Logic.I|exact K]).
      destruct (nth_error (pr_tasks (wd_process w1)) i) as [t|] eqn:Et; [|discriminate].
      destruct (firings (ta_body t)) as [|[c' next] l] eqn:Ef; [injection H as <-; exact K1|].
      eapply ask_all_covered; [exact H|exact Et| |exact K1]. right.
      unfold on_process in E1. cbn [app_step] in E1. destruct (nth_error (pr_tasks (wd_process w)) i) as [t0|] eqn:Et0; [|discriminate].
      destruct (tick_task_step _ _ _ _ _) as [t1|] eqn:Es; [|discriminate]. cbn [put_task] in E1. injection E1 as <-. cbn [wd_process pr_tasks] in Et.
      rewrite (nth_set_same _ _ _ _ Et0) in Et. injection Et as ->. rewrite <- Ef.
      unfold tick_task_step in Es. destruct t0 as [tb tk [e wk|e sc z data k|sc cfg k]]; cbn [ta_body ta_backend ta_token] in Es; [discriminate|..].
      + unfold tick_step in Es. destruct (tk_phase k); try discriminate. destruct (_ && _); [|discriminate]. injection Es as <-. cbn. split; [reflexivity|eauto].
      + unfold tick_step in Es. destruct (tk_phase k); try discriminate. destruct (_ && _); [|discriminate]. injection Es as <-. cbn. split; [reflexivity|eauto].
    - eapply Hp; [exact H|exact Logic.I|exact K].
    - unfold world_acted in H. destruct (nth_error (pr_tasks (wd_process w)) i) as [t|] eqn:Et; [|discriminate].
      cbn zeta in H. destruct (existsb is_panic _); [eapply Hp; [exact H|exact Logic.I|exact K]|].
      destruct (forallb is_done _) eqn:Ed; [|discriminate].
      eapply onp_covered; [exact H| | |exact K]; [intros; discriminate|].
      intros i0 c0 t0 a E Ht0 Ha Hi Hn. injection E as <- <-. assert (t0 = t) as -> by congruence. eapply is_done_returned; eauto.
    - eapply Hp; [exact H|exact Logic.I|exact K].
  Qed.

  Theorem covered_thm es w : vrun world_init es = Some w -> all_covered w.
  Proof.
    assert (G : forall es w, all_covered w -> forall w', vrun w es = Some w' -> all_covered w').
    { clear. induction es as [|[now ev] es IH]; intros w K w' H; cbn [world_run] in H; [injection H as <-; exact K|].
      destruct (vstep now w ev) as [w1|] eqn:E; [|discriminate]. eapply IH; [|exact H]. eapply step_covered; eassumption. }
    intro H. eapply G; [|exact H]. intros a [].
  Qed.

  (** * What can always happen next *)

  Definition owns (b i : nat) (es : list (time * world_event Schedule Zone)) : Prop := Forall (fun x => own b i (snd x)) es.
  (** Nothing but task [i] has changed in the process. *)
  Definition aside (i : nat) (w w' : world) : Prop :=
    pr_rexecutors (wd_process w') = pr_rexecutors (wd_process w)
    /\ pr_cell (wd_process w') = pr_cell (wd_process w)
    /\ length (pr_tasks (wd_process w')) = length (pr_tasks (wd_process w))
    /\ (forall k, k <> i -> nth_error (pr_tasks (wd_process w')) k = nth_error (pr_tasks (wd_process w)) k)
    /\ (forall t t', nth_error (pr_tasks (wd_process w)) i = Some t -> nth_error (pr_tasks (wd_process w')) i = Some t' ->
          ta_token t' = ta_token t /\ ta_backend t' = ta_backend t /\ purpose t' = purpose t).
  Lemma aside_refl i w : aside i w w. Proof. unfold aside. repeat split; congruence. Qed.
  Lemma aside_same i (w w' : world) : wd_process w' = wd_process w -> aside i w w'.
  Proof. unfold aside. intros ->. repeat split; congruence. Qed.
  Lemma aside_trans i w1 w2 w3 : aside i w1 w2 -> aside i w2 w3 -> aside i w1 w3.
  Proof.
    intros [A [B [C [D E]]]] [A' [B' [C' [D' E']]]]. unfold aside. rewrite A', B', C'. do 3 (split; [assumption|]).
    split; [intros k Hk; rewrite D', D; auto|]. intros t t' Ht Ht'.
    destruct (nth_error (pr_tasks (wd_process w2)) i) as [t2|] eqn:E2.
    - destruct (E t t2 Ht eq_refl) as [X1 [X2 X3]]. destruct (E' t2 t' eq_refl Ht') as [Y1 [Y2 Y3]]. split; [|split]; congruence.
    - apply nth_error_None in E2. apply nth_lt in Ht. lia.
  Qed.
  Lemma owns_app b i l l' : owns b i l -> owns b i l' -> owns b i (l ++ l').
  Proof. unfold owns. intros. apply Forall_app. auto. Qed.

  Lemma do_worker now i (w : world) t e wk ev wk' : nth_error (pr_tasks (wd_process w)) i = Some t -> ta_body t = BWorker e wk ->
    wstep e wk ev = Some wk' -> ev <> WCancel ->
    exists w', onp now (AWorker i ev) w = Some w' /\ aside i w w'
      /\ nth_error (pr_tasks (wd_process w')) i = Some (mk_task (ta_backend t) (ta_token t) (BWorker e wk'))
      /\ wd_stores w' = wd_stores w /\ wd_streams w' = wd_streams w /\ wd_asks w' = wd_asks w.
  Proof.
    intros Ht Eb Hs Hc. unfold on_process. cbn [app_step]. rewrite Ht. unfold worker_task_step. rewrite Eb, Hs.
    assert (E : forall A (a b : A), match ev with WCancel => a | _ => b end = b) by (intros; destruct ev; congruence).
    eexists. split; [rewrite E; cbn [put_task]; reflexivity|]. cbn. assert (Hn : nth_error (set_nth i (mk_task (ta_backend t) (ta_token t) (BWorker e wk')) (pr_tasks (wd_process w))) i = Some (mk_task (ta_backend t) (ta_token t) (BWorker e wk'))) by exact (nth_set_same _ _ _ _ Ht).
    split; [|auto]. unfold aside. cbn. do 2 (split; [reflexivity|]). split; [apply set_nth_length|].
    split; [intros k Hk; apply nth_set_nth_other; congruence|]. intros t0 t0' H0 H0'. rewrite Ht in H0. rewrite Hn in H0'.
    injection H0 as <-. injection H0' as <-. cbn. unfold purpose. cbn. rewrite Eb. auto.
  Qed.
  Lemma do_tick now i (w : world) t ev t' : nth_error (pr_tasks (wd_process w)) i = Some t ->
    tick_task_step utc upcoming (token_cancelled t (wd_process w)) t ev = Some t' ->
    exists w', onp now (ATick i ev) w = Some w' /\ aside i w w' /\ nth_error (pr_tasks (wd_process w')) i = Some t'
      /\ wd_stores w' = wd_stores w /\ wd_streams w' = wd_streams w /\ wd_asks w' = wd_asks w.
  Proof.
    intros Ht Hs. unfold on_process. destruct (app_step utc upcoming show now (wd_process w) (ATick i ev)) as [[s r]|] eqn:Ea.
    2: { cbn [app_step] in Ea. rewrite Ht, Hs in Ea. discriminate. }
    pose proof (step_keeps utc upcoming show now (wd_process w) (ATick i ev) s r i t) as K. specialize (fun t' => K t' Ea Ht).
    cbn [app_step] in Ea. rewrite Ht, Hs in Ea. cbn [put_task] in Ea. injection Ea as <- <-.
    eexists. split; [reflexivity|]. cbn. assert (Hn : nth_error (set_nth i t' (pr_tasks (wd_process w))) i = Some t') by exact (nth_set_same _ _ _ _ Ht). split; [|auto]. unfold aside. cbn. do 2 (split; [reflexivity|]). split; [apply set_nth_length|].
    split; [intros k Hk; apply nth_set_nth_other; congruence|]. intros t0 t0' H0 H0'. rewrite Ht in H0. injection H0 as <-. apply K. exact H0'.
  Qed.

  Lemma task_store es w i t : vrun world_init es = Some w -> nth_error (pr_tasks (wd_process w)) i = Some t ->
    exists s, nth_error (wd_stores w) (ta_backend t) = Some s.
  Proof.
    intros H Ht. destruct (reach_link utc upcoming show hash p es w H) as [K _].
    pose proof (k_task _ _ _ _ _ K t (nth_error_In _ _ Ht)) as Hl. destruct (nth_error (wd_stores w) (ta_backend t)) eqn:E; [eauto|].
    apply nth_error_None in E. lia.
  Qed.

  Definition present (w : world) (i c : nat) : Prop := exists x, call_at w i c = Some x.
  Lemma calls_grow s l : (length (c_calls s) <= length (c_calls (fst (conc_step p s l))))%nat.
  Proof.
    destruct l as [o|i now|ex|k' now|k']; cbn [conc_step].
    - destruct o; cbn [fst c_calls]; rewrite ?app_length; lia.
    - destruct (nth_error (c_calls s) i) as [c0|] eqn:En; [|cbn; lia].
      destruct (call_step p i now (c_mem s) c0) as [[m' c'] ev] eqn:Ec. cbn [fst c_calls]. rewrite set_nth_length. lia.
    - cbn. lia.
    - destruct (nth_error (c_streams s) k'); [|cbn; lia]. destruct (nth_error (m_subs (c_mem s)) k'); [|cbn; lia].
      destruct (stream_step p k' now (c_mem s) s1 s0) as [[m' ph'] ev]. cbn. lia.
    - destruct (nth_error (c_streams s) k') as [[]|]; try (cbn; lia). destruct (nth_error (m_subs (c_mem s)) k') as [sb|]; [|cbn; lia].
      destruct (sub_queue sb); cbn; lia.
  Qed.
  Lemma ons_present now b l (w w' : world) i c : ons now b l w = Some w' -> present w i c -> present w' i c.
  Proof.
    intros H [x H1]. destruct (ons_stores p _ _ _ _ _ H) as [Ep [s [Es Est]]].
    unfold present, call_at in *. rewrite Ep, Est. destruct (nth_error (pr_tasks (wd_process w)) i) as [t|]; [|discriminate].
    destruct (Nat.eq_dec b (ta_backend t)) as [->|Hne].
    - rewrite Es in H1. rewrite (nth_set_same _ _ _ _ Es). pose proof (calls_grow s l) as G. apply nth_lt in H1.
      destruct (nth_error (c_calls (fst (conc_step p s l))) c) eqn:E; [eauto|]. apply nth_error_None in E. lia.
    - rewrite nth_set_nth_other by congruence. eauto.
  Qed.

  (** Calls have gone on, and nothing else has happened. *)
  Definition calls_only (i : nat) (w w' : world) : Prop :=
    wd_process w' = wd_process w /\ wd_streams w' = wd_streams w /\ wd_asks w' = wd_asks w
    /\ (forall c, returned w i c -> returned w' i c) /\ (forall c, present w i c -> present w' i c).
  Lemma calls_only_refl i w : calls_only i w w. Proof. unfold calls_only. auto. Qed.
  Lemma calls_only_trans i w1 w2 w3 : calls_only i w1 w2 -> calls_only i w2 w3 -> calls_only i w1 w3.
  Proof. intros [A [B [C [D E]]]] [A' [B' [C' [D' E']]]]. unfold calls_only. rewrite A', B', C'. auto 10. Qed.
  Lemma ons_only now b c i (w w' : world) : ons now b (LRun c now) w = Some w' -> calls_only i w w'.
  Proof.
    intro H. split; [exact (proj1 (ons_stores p _ _ _ _ _ H))|]. split; [|split; [exact (ons_asks _ _ _ _ _ H)|]].
    - unfold on_store in H. destruct (nth_error (wd_stores w) b); [|discriminate]. injection H as <-. reflexivity.
    - split; intros c'; [eapply ons_returned; exact H|eapply ons_present; exact H].
  Qed.

  (** A call on the task's store can be carried out. *)
  Lemma finish_call now i t c : forall m es w x, vrun world_init es = Some w -> nth_error (pr_tasks (wd_process w)) i = Some t ->
    call_at w i c = Some x -> (steps_left x <= m)%nat ->
    exists es' w', vrun w es' = Some w' /\ owns (ta_backend t) i es' /\ Forall (fun x => fst x = now) es'
      /\ calls_only i w w' /\ returned w' i c.
  Proof.
    induction m as [|m IH]; intros es w x H Ht Hc Hm.
    - exists [], w. split; [reflexivity|]. split; [constructor|]. split; [constructor|]. split; [apply calls_only_refl|].
      exists x. unfold steps_left in Hm. destruct (cl_pc x) eqn:Ep; try lia. eauto.
    - assert (Hst : exists s, nth_error (wd_stores w) (ta_backend t) = Some s /\ nth_error (c_calls s) c = Some x).
      { unfold call_at in Hc. rewrite Ht in Hc. destruct (nth_error (wd_stores w) (ta_backend t)); [eauto|discriminate]. }
      destruct Hst as [s [Es Ex]].
      assert (Hok : (steps_left x = 4 \/ steps_left x = 0 \/ is_enq (cl_op x) = true)%nat).
      { rewrite (store_thm utc upcoming show hash p es w _ s H Es) in Ex. eapply mid_enq. eapply nth_error_In. exact Ex. }
      destruct (call_step p c now (c_mem s) x) as [[m' x'] evs] eqn:Ec.
      destruct (call_step_left _ _ _ _ _ _ _ _ Hok Ec) as [_ [Hd _]].
      assert (E1 : exists w1, ons now (ta_backend t) (LRun c now) w = Some w1 /\ call_at w1 i c = Some x').
      { unfold on_store. rewrite Es. eexists. split; [reflexivity|].
        unfold call_at. cbn [wd_process wd_stores]. rewrite Ht, (nth_set_same _ _ _ _ Es). cbn [conc_step]. rewrite Ex, Ec. cbn [fst c_calls].
        exact (nth_set_same _ _ _ _ Ex). }
      destruct E1 as [w1 [E1 P4]]. pose proof (ons_only now _ c i _ _ E1) as P.
      assert (H1 : vrun world_init (es ++ [(now, VRun (ta_backend t) c)]) = Some w1).
      { rewrite vrun_app, H. cbn [world_run world_step]. rewrite E1. reflexivity. }
      destruct (IH _ w1 x' H1 ltac:(rewrite (proj1 P); exact Ht) P4 ltac:(lia)) as [es2 [w2 [R [O [T [Q1 Q2]]]]]].
      exists ((now, VRun (ta_backend t) c) :: es2), w2. split; [cbn [world_run world_step]; rewrite E1; exact R|].
      split; [constructor; [reflexivity|exact O]|]. split; [constructor; [reflexivity|exact T]|].
      split; [eapply calls_only_trans; eassumption|exact Q2].
  Qed.
  Lemma finish_calls now i t : forall l es w, vrun world_init es = Some w -> nth_error (pr_tasks (wd_process w)) i = Some t ->
    (forall c, In c l -> present w i c) ->
    exists es' w', vrun w es' = Some w' /\ owns (ta_backend t) i es' /\ Forall (fun x => fst x = now) es'
      /\ calls_only i w w' /\ forall c, In c l -> returned w' i c.
  Proof.
    induction l as [|c l IH]; intros es w H Ht Hl.
    - exists [], w. split; [reflexivity|]. split; [constructor|]. split; [constructor|]. split; [apply calls_only_refl|intros c []].
    - destruct (IH es w H Ht ltac:(intros; apply Hl; now right)) as [es1 [w1 [R1 [O1 [T1 [P1 P2]]]]]].
      assert (H1 : vrun world_init (es ++ es1) = Some w1) by (rewrite vrun_app, H; exact R1).
      destruct (Hl c (or_introl eq_refl)) as [x0 Hx0].
      destruct P1 as [A [B [C [D E]]]]. destruct (E c (ex_intro _ x0 Hx0)) as [x Hx].
      destruct (finish_call now i t c (steps_left x) _ w1 x H1 ltac:(rewrite A; exact Ht) Hx (le_n _)) as [es2 [w2 [R2 [O2 [T2 [Q1 Q2]]]]]].
      exists (es1 ++ es2), w2. split; [rewrite vrun_app, R1; exact R2|]. split; [apply owns_app; assumption|].
      split; [apply Forall_app; auto|]. split; [eapply calls_only_trans; [|exact Q1]; unfold calls_only; auto 10|].
      intros c' [<-|Hc']; [exact Q2|]. apply Q1, P2, Hc'.
  Qed.

  (** * Workers *)
  Definition weight (x : nat * flight_phase) : nat := match snd x with FNew _ => 3 | FExecuting _ => 2 | FReporting _ => 1 end.
  Definition load (wk : worker) : nat := list_sum (map weight (w_flights wk)).
  Lemma weight_pos x : (1 <= weight x)%nat. Proof. unfold weight. destruct (snd x); lia. Qed.
  Lemma load_set n ph ph' : forall l, flight_of n l = Some ph ->
    (match ph' with Some q => weight (n, q) | None => 0 end < weight (n, ph))%nat ->
    (list_sum (map weight (set_flight n ph' l)) < list_sum (map weight l))%nat.
  Proof.
    induction l as [|[k q] l IH]; cbn [flight_of set_flight]; [discriminate|]. destruct (Nat.eqb k n) eqn:E; intros Hf Hw.
    - injection Hf as ->. apply Nat.eqb_eq in E. subst k. destruct ph'; cbn [map list_sum]; change (list_sum (?a :: ?b)) with (a + list_sum b)%nat; lia.
    - cbn [map]. change (list_sum (?a :: ?b)) with (a + list_sum b)%nat. specialize (IH Hf Hw). lia.
  Qed.

  (** A working worker with something to do can get on with it. *)
  Lemma get_on now es w i t e wk : vrun world_init es = Some w -> nth_error (pr_tasks (wd_process w)) i = Some t -> ta_body t = BWorker e wk ->
    w_life wk = Working -> w_flights wk <> [] ->
    exists es' w' wk', vrun w es' = Some w' /\ owns (ta_backend t) i es' /\ Forall (fun x => fst x = now) es' /\ aside i w w'
      /\ nth_error (pr_tasks (wd_process w')) i = Some (mk_task (ta_backend t) (ta_token t) (BWorker e wk'))
      /\ (w_life wk' = Crashed_worker
          \/ (w_life wk' = Working /\ w_open wk' = w_open wk /\ w_cancelled wk' = w_cancelled wk /\ w_transit wk' = w_transit wk /\ (load wk' < load wk)%nat)).
  Proof.
    intros H Ht Eb El Hf. destruct (w_flights wk) as [|[n ph] l] eqn:Ef; [contradiction|]. clear Hf.
    assert (Fn : flight_of n (w_flights wk) = Some ph) by (rewrite Ef; cbn; now rewrite Nat.eqb_refl). clear Ef l.
    assert (Go : forall ev wk' vev, wstep e wk ev = Some wk' -> ev <> WCancel -> own (ta_backend t) i vev ->
              (forall w', onp now (AWorker i ev) w = Some w' -> exists w'', vstep now w vev = Some w'' /\ wd_process w'' = wd_process w') ->
              (w_life wk' = Crashed_worker
               \/ (w_life wk' = Working /\ w_open wk' = w_open wk /\ w_cancelled wk' = w_cancelled wk /\ w_transit wk' = w_transit wk /\ (load wk' < load wk)%nat)) ->
              exists es' w' wk', vrun w es' = Some w' /\ owns (ta_backend t) i es' /\ Forall (fun x => fst x = now) es' /\ aside i w w'
                /\ nth_error (pr_tasks (wd_process w')) i = Some (mk_task (ta_backend t) (ta_token t) (BWorker e wk'))
                /\ (w_life wk' = Crashed_worker
                    \/ (w_life wk' = Working /\ w_open wk' = w_open wk /\ w_cancelled wk' = w_cancelled wk /\ w_transit wk' = w_transit wk /\ (load wk' < load wk)%nat))).
    { intros ev wk' vev Hs Hc Ho Hv Hr. destruct (do_worker now i w t e wk ev wk' Ht Eb Hs Hc) as [w' [A1 [A2 [A3 _]]]].
      destruct (Hv w' A1) as [w'' [B1 B2]]. exists [(now, vev)], w'', wk'. split; [cbn [world_run]; rewrite B1; reflexivity|].
      split; [constructor; [exact Ho|constructor]|]. split; [constructor; [reflexivity|constructor]|].
      split; [unfold aside in *; rewrite B2; exact A2|]. rewrite B2. split; [exact A3|exact Hr]. }
    assert (Prog : forall ph' obs, (match ph' with Some q => weight (n, q) | None => 0 end < weight (n, ph))%nat ->
              w_life (progress n ph' obs wk) = Working /\ w_open (progress n ph' obs wk) = w_open wk /\ w_cancelled (progress n ph' obs wk) = w_cancelled wk
              /\ w_transit (progress n ph' obs wk) = w_transit wk /\ (load (progress n ph' obs wk) < load wk)%nat).
    { intros ph' obs Hw. cbn [progress w_life w_open w_cancelled w_transit]. do 4 (split; [first [exact El|reflexivity]|]).
      unfold load. cbn [progress w_flights]. eapply load_set; eassumption. }
    destruct ph as [[j|err]|x|op].
    - destruct (begin_job (xe_codec e) (xe_fns e) j) as [x| |] eqn:Ebj.
      + eapply (Go (WStart n) _ (VStart i n)); [unfold worker_step; rewrite El, Fn, Ebj; reflexivity|discriminate|reflexivity| |].
        * intros w' Hw'. exists w'. split; [exact Hw'|reflexivity].
        * right. apply Prog. cbn. lia.
      + eapply (Go (WStart n) _ (VStart i n)); [unfold worker_step; rewrite El, Fn, Ebj; reflexivity|discriminate|reflexivity| |].
        * intros w' Hw'. exists w'. split; [exact Hw'|reflexivity].
        * right. apply Prog. cbn. lia.
      + eapply (Go (WStart n) _ (VStart i n)); [unfold worker_step; rewrite El, Fn, Ebj; reflexivity|discriminate|reflexivity| |].
        * intros w' Hw'. exists w'. split; [exact Hw'|reflexivity].
        * left. reflexivity.
    - eapply (Go (WStart n) _ (VStart i n)); [unfold worker_step; rewrite El, Fn; reflexivity|discriminate|reflexivity| |].
      + intros w' Hw'. exists w'. split; [exact Hw'|reflexivity].
      + right. apply Prog. cbn. lia.
    - (* the execution ends well *)
      assert (Hs : wstep e wk (WEnd n now now ODone) = Some (progress n (Some (FReporting (OpComplete (x_id x)))) [Reported n (OpComplete (x_id x))]
                     (progress n (Some (FExecuting x)) [Outcome n ODone] wk))).
      { unfold worker_step. rewrite El, Fn. reflexivity. }
      eapply (Go (WEnd n now now ODone) _ (VEnd i n now now ODone)); [exact Hs|discriminate|reflexivity| |].
      + intros w' Hw'. cbn [world_step]. unfold world_end. rewrite Hw'.
        destruct (do_worker now i w t e wk _ _ Ht Eb Hs ltac:(discriminate)) as [w0 [A1 [A2 [A3 [A4 _]]]]].
        assert (w0 = w') as -> by congruence. rewrite A3. cbn [ta_body ta_backend].
        match goal with |- context [flight_of n ?l] => destruct (flight_of n l) as [[|?|op]|] end; try (eexists; split; reflexivity).
        destruct (task_store es w i t H Ht) as [s Hst]. unfold ask_for, on_store. rewrite A4, Hst. eexists. split; reflexivity.
      + right. assert (G : set_flight n (Some (FReporting (OpComplete (x_id x)))) (set_flight n (Some (FExecuting x)) (w_flights wk))
                        = set_flight n (Some (FReporting (OpComplete (x_id x)))) (w_flights wk)).
        { generalize (w_flights wk). induction l as [|[k q] l IH]; [reflexivity|]. cbn [set_flight]. destruct (Nat.eqb k n) eqn:E.
          - cbn [set_flight]. now rewrite E.
          - cbn [set_flight]. now rewrite E, IH. }
        cbn [progress w_life w_open w_cancelled w_transit]. do 4 (split; [first [exact El|reflexivity]|]). unfold load. cbn [progress w_flights]. rewrite G.
        eapply load_set; [exact Fn|cbn; lia].
    - (* the report is carried out, and answered *)
      destruct (answer_thm utc upcoming show hash p es w i t e wk n op H Ht Eb Fn) as [a [c [E1 [E2 _]]]].
      destruct (finish_call now i t (ak_call a) (steps_left c) es w c H Ht E2 (le_n _)) as [es1 [w1 [R1 [O1 [T1 [P1 P2]]]]]].
      assert (H1 : vrun world_init (es ++ es1) = Some w1) by (rewrite vrun_app, H; exact R1).
      assert (Ht1 : nth_error (pr_tasks (wd_process w1)) i = Some t) by (rewrite (proj1 P1); exact Ht).
      destruct (answer_thm utc upcoming show hash p _ w1 i t e wk n op H1 Ht1 Eb Fn) as [a1 [c1 [E1' [E2' [_ Hans]]]]].
      destruct P1 as [A [B [C D]]]. rewrite C, E1 in E1'. injection E1' as <-. destruct P2 as [x [r [X1 X2]]].
      assert (x = c1) as -> by congruence. specialize (Hans now). rewrite X2 in Hans.
      destruct Hans as [r' [w2 [wk' [-> [Hv [Hs _]]]]]].
      destruct (do_worker now i w1 t e wk _ _ Ht1 Eb Hs ltac:(discriminate)) as [w2' [Y1 [Y2 [Y3 _]]]].
      assert (Ev : vstep now w1 (VAnswer i n) = Some w2').
      { destruct (report_thm utc upcoming show hash p _ w1 i t e wk n op H1 Ht1 Eb Fn) as [a2 [c2 [F1 [F2 [_ F4]]]]].
        rewrite C, E1 in F1. injection F1 as <-. assert (c2 = c1) as -> by congruence.
        cbn [world_step]. unfold world_answer. rewrite F4, X2. exact Y1. }
      exists (es1 ++ [(now, VAnswer i n)]), w2', wk'. split; [rewrite vrun_app, R1; cbn [world_run]; rewrite Ev; reflexivity|].
      split; [apply owns_app; [exact O1|constructor; [reflexivity|constructor]]|].
      split; [apply Forall_app; split; [exact T1|constructor; [reflexivity|constructor]]|].
      split; [eapply aside_trans; [apply aside_same; exact A|exact Y2]|]. split; [exact Y3|].
      unfold worker_step in Hs. rewrite El, Fn in Hs. destruct r'; injection Hs as <-; [right; apply Prog; cbn; lia..|left; reflexivity].
  Qed.

  (** A working worker can finish all it has, unless it dies of it. *)
  Lemma get_idle now : forall m es w i t e wk, vrun world_init es = Some w -> nth_error (pr_tasks (wd_process w)) i = Some t -> ta_body t = BWorker e wk ->
    w_life wk = Working -> (load wk <= m)%nat ->
    exists es' w' wk', vrun w es' = Some w' /\ owns (ta_backend t) i es' /\ Forall (fun x => fst x = now) es' /\ aside i w w'
      /\ nth_error (pr_tasks (wd_process w')) i = Some (mk_task (ta_backend t) (ta_token t) (BWorker e wk'))
      /\ (w_life wk' = Crashed_worker
          \/ (w_life wk' = Working /\ w_open wk' = w_open wk /\ w_cancelled wk' = w_cancelled wk /\ w_transit wk' = w_transit wk /\ w_flights wk' = [])).
  Proof.
    induction m as [|m IH]; intros es w i t e wk H Ht Eb El Hm.
    - exists [], w, wk. split; [reflexivity|]. split; [constructor|]. split; [constructor|]. split; [apply aside_refl|].
      split; [rewrite Ht; destruct t; cbn in *; congruence|]. right. do 4 (split; [first [exact El|reflexivity]|]).
      unfold load in Hm. destruct (w_flights wk) as [|x l]; [reflexivity|]. cbn [map] in Hm. change (list_sum (?a :: ?b)) with (a + list_sum b)%nat in Hm.
      pose proof (weight_pos x). lia.
    - destruct (w_flights wk) as [|x l] eqn:Ef.
      + exists [], w, wk. split; [reflexivity|]. split; [constructor|]. split; [constructor|]. split; [apply aside_refl|].
        split; [rewrite Ht; destruct t; cbn in *; congruence|]. right. auto 10.
      + destruct (get_on now es w i t e wk H Ht Eb El ltac:(congruence)) as [es1 [w1 [wk1 [R1 [O1 [T1 [A1 [N1 D1]]]]]]]].
        destruct D1 as [D1|[L1 [Op1 [C1 [Tr1 Ld]]]]].
        * exists es1, w1, wk1. auto 10.
        * assert (H1 : vrun world_init (es ++ es1) = Some w1) by (rewrite vrun_app, H; exact R1).
          destruct (IH _ w1 i _ e wk1 H1 N1 eq_refl L1 ltac:(lia)) as [es2 [w2 [wk2 [R2 [O2 [T2 [A2 [N2 D2]]]]]]]].
          exists (es1 ++ es2), w2, wk2. split; [rewrite vrun_app, R1; exact R2|]. split; [apply owns_app; assumption|].
          split; [apply Forall_app; auto|]. split; [eapply aside_trans; eassumption|]. split; [exact N2|].
          rewrite Op1, C1, Tr1 in D2. exact D2.
  Qed.

  (** A worker that has been told to stop can come to its end. *)
  Lemma worker_stops now es w i t e wk : vrun world_init es = Some w -> nth_error (pr_tasks (wd_process w)) i = Some t -> ta_body t = BWorker e wk ->
    w_cancelled wk = true \/ w_life wk <> Working -> (forall l, ex_max_concurrency (xe_consts e) = Some l -> 0 <= l) ->
    exists es' w' t', vrun w es' = Some w' /\ owns (ta_backend t) i es' /\ Forall (fun x => fst x = now) es' /\ aside i w w'
      /\ nth_error (pr_tasks (wd_process w')) i = Some t' /\ (ended t' \/ died t').
  Proof.
    intros H Ht Eb Hc Hlim. destruct (w_life wk) eqn:El.
    2,3: exists [], w, t; split; [reflexivity|]; split; [constructor|]; split; [constructor|]; split; [apply aside_refl|]; split; [exact Ht|];
      unfold ended, died; rewrite Eb; auto.
    destruct Hc as [Hc|Hc]; [|congruence].
    destruct (get_idle now (load wk) es w i t e wk H Ht Eb El (le_n _)) as [es1 [w1 [wk1 [R1 [O1 [T1 [A1 [N1 D1]]]]]]]].
    destruct D1 as [D1|[L1 [Op1 [C1 [_ F1]]]]].
    - exists es1, w1. eexists. split; [exact R1|]. split; [exact O1|]. split; [exact T1|]. split; [exact A1|]. split; [exact N1|]. right. exact D1.
    - assert (Hb : below_limit (ex_max_concurrency (xe_consts e)) 0 = true).
      { unfold below_limit. destruct (ex_max_concurrency (xe_consts e)) as [l|]; [|reflexivity]. specialize (Hlim l eq_refl).
        destruct (Z.eqb_spec l 0); [reflexivity|]. cbn [orb]. apply Z.ltb_lt. cbn. lia. }
      assert (Fin : forall w1 wk1, nth_error (pr_tasks (wd_process w1)) i = Some (mk_task (ta_backend t) (ta_token t) (BWorker e wk1)) ->
                w_life wk1 = Working -> w_flights wk1 = [] -> w_open wk1 = false ->
                exists w', vrun w1 [(now, VFinish i)] = Some w' /\ aside i w1 w' /\ exists t', nth_error (pr_tasks (wd_process w')) i = Some t' /\ ended t').
      { intros w0 wk0 N0 L0 F0 Op0.
        destruct (do_worker now i w0 _ e wk0 WFinish (mk_worker [] (w_next wk0) (w_cancelled wk0) false None Ended (w_seen wk0)) N0 eq_refl) as [w' [B1 [B2 [B3 _]]]];
          [unfold worker_step; rewrite L0, F0, Op0; reflexivity|discriminate|].
        exists w'. split; [cbn [world_run world_step]; rewrite B1; reflexivity|]. split; [exact B2|]. eexists. split; [exact B3|reflexivity]. }
      destruct (w_open wk1) eqn:Eo.
      + destruct (do_worker now i w1 _ e wk1 WClose (mk_worker (w_flights wk1) (w_next wk1) (w_cancelled wk1) false None (w_life wk1) (w_seen wk1)) N1 eq_refl) as [w2 [B1 [B2 [B3 _]]]];
          [unfold worker_step; rewrite L1, Eo, C1, Hc, F1; cbn [length andb]; rewrite Hb; reflexivity|discriminate|].
        destruct (Fin w2 _ B3 L1 F1 eq_refl) as [w3 [G1 [G2 [t' [G3 G4]]]]].
        exists (es1 ++ [(now, VClose i)] ++ [(now, VFinish i)]), w3, t'.
        split; [rewrite vrun_app, R1; cbn [app world_run world_step]; rewrite B1; exact G1|].
        split; [apply owns_app; [exact O1|repeat constructor]|]. split; [apply Forall_app; split; [exact T1|repeat constructor]|].
        split; [eapply aside_trans; [exact A1|eapply aside_trans; eassumption]|]. auto.
      + destruct (Fin w1 _ N1 L1 F1 Eo) as [w3 [G1 [G2 [t' [G3 G4]]]]].
        exists (es1 ++ [(now, VFinish i)]), w3, t'.
        split; [rewrite vrun_app, R1; exact G1|].
        split; [apply owns_app; [exact O1|repeat constructor]|]. split; [apply Forall_app; split; [exact T1|repeat constructor]|].
        split; [eapply aside_trans; eassumption|]. auto.
  Qed.

  (** * Loops *)
  Definition ticker_of (t : tsk) : option (time -> option time) * option ticker :=
    match ta_body t with
    | BWorker _ _ => (None, None)
    | BCron _ sc z _ k => (Some (upcoming sc z), Some k)
    | BPruner sc _ k => (Some (upcoming sc utc), Some k)
    end.
  Definition with_ticker (k : ticker) (t : tsk) : tsk :=
    mk_task (ta_backend t) (ta_token t)
      match ta_body t with BWorker e wk => BWorker e wk | BCron e sc z d _ => BCron e sc z d k | BPruner sc cfg _ => BPruner sc cfg k end.
  Lemma tick_with stop t up k ev k' : ticker_of t = (Some up, Some k) -> tick_step up k ev = Some k' -> stop = true \/ ev <> Cancel ->
    tick_task_step utc upcoming stop t ev = Some (with_ticker k' t).
  Proof.
    unfold ticker_of, tick_task_step, with_ticker. intros Hk Hs Hst. destruct (ta_body t); try discriminate; injection Hk as <- <-; rewrite Hs;
      destruct ev; try reflexivity; destruct stop; try reflexivity; destruct Hst; congruence.
  Qed.
  Lemma with_ticker_of t up k k' : ticker_of t = (Some up, Some k) -> ticker_of (with_ticker k' t) = (Some up, Some k').
  Proof. unfold ticker_of, with_ticker. cbn [ta_body]. destruct (ta_body t); try discriminate; congruence. Qed.
  Lemma with_ticker_firings t up k : ticker_of t = (Some up, Some k) -> firings (ta_body t) = tk_fired k.
  Proof. unfold ticker_of, firings. destruct (ta_body t); try discriminate; congruence. Qed.
  Lemma with_ticker_end t up k : ticker_of t = (Some up, Some k) -> tk_phase k = Stopped \/ tk_phase k = Crashed -> ended t \/ died t.
  Proof. unfold ticker_of, ended, died. destruct (ta_body t); try discriminate; congruence. Qed.

  Definition ends (w : world) (i : nat) : Prop :=
    exists es' w' t', vrun w es' = Some w' /\ (exists t, nth_error (pr_tasks (wd_process w)) i = Some t /\ owns (ta_backend t) i es') /\ aside i w w'
      /\ nth_error (pr_tasks (wd_process w')) i = Some t' /\ (ended t' \/ died t').
  Lemma ends_after ev now (w w' : world) i t t' : vstep now w ev = Some w' -> nth_error (pr_tasks (wd_process w)) i = Some t ->
    nth_error (pr_tasks (wd_process w')) i = Some t' -> ta_backend t' = ta_backend t ->
    own (ta_backend t) i ev -> aside i w w' -> ends w' i -> ends w i.
  Proof.
    intros H Ht Ht' Hb Ho Ha [es [w2 [t2 [R [[t0 [N0 O]] [A [N D]]]]]]]. assert (t0 = t') as -> by congruence.
    exists ((now, ev) :: es), w2, t2. split; [cbn [world_run]; rewrite H; exact R|]. split.
    - exists t. split; [exact Ht|]. constructor; [exact Ho|]. rewrite <- Hb. exact O.
    - split; [eapply aside_trans; eassumption|]. auto.
  Qed.
  Lemma ends_now (w : world) i t : nth_error (pr_tasks (wd_process w)) i = Some t -> ended t \/ died t -> ends w i.
  Proof.
    intros Ht D. exists [], w, t. split; [reflexivity|]. split; [exists t; split; [exact Ht|constructor]|]. split; [apply aside_refl|]. auto.
  Qed.

  Lemma loop_stops w i t up k es : vrun world_init es = Some w -> nth_error (pr_tasks (wd_process w)) i = Some t -> ticker_of t = (Some up, Some k) ->
    token_cancelled t (wd_process w) = true -> ends w i.
  Proof.
    intros H Ht Hk Hc.
    (* a step of the loop that is an event of its own *)
    assert (Step : forall w t k ev k' vev, nth_error (pr_tasks (wd_process w)) i = Some t -> ticker_of t = (Some up, Some k) -> token_cancelled t (wd_process w) = true ->
              tick_step up k ev = Some k' -> (forall now, vstep now w vev = onp now (ATick i ev) w) -> own (ta_backend t) i vev ->
              (forall w', nth_error (pr_tasks (wd_process w')) i = Some (with_ticker k' t) -> token_cancelled (with_ticker k' t) (wd_process w') = true -> ends w' i) -> ends w i).
    { intros w0 t0 k0 ev k0' vev N0 K0 C0 S0 V0 O0 Hnext.
      destruct (do_tick 0 i w0 t0 ev (with_ticker k0' t0) N0 (tick_with _ _ _ _ _ _ K0 S0 (or_introl C0))) as [w' [B1 [B2 [B3 _]]]].
      eapply (ends_after vev 0 w0 w' i t0 (with_ticker k0' t0)); [rewrite V0; exact B1|exact N0|exact B3|reflexivity|exact O0|exact B2|].
      apply Hnext; [exact B3|]. unfold token_cancelled in *. cbn [with_ticker ta_token]. rewrite (proj1 B2). exact C0. }
    assert (S1 : forall w t c f n u, nth_error (pr_tasks (wd_process w)) i = Some t -> ticker_of t = (Some up, Some (mk_ticker (Sleeping n u) c f)) ->
              token_cancelled t (wd_process w) = true -> ends w i).
    { intros w0 t0 c f n u N0 K0 C0. eapply (Step w0 t0 _ Cancel _ (VLeave i)); [exact N0|exact K0|exact C0|reflexivity|reflexivity|reflexivity|].
      intros w' N' _. eapply ends_now; [exact N'|]. eapply with_ticker_end; [eapply with_ticker_of; exact K0|]. auto. }
    assert (S2 : forall w t c f, nth_error (pr_tasks (wd_process w)) i = Some t -> ticker_of t = (Some up, Some (mk_ticker Computing c f)) ->
              token_cancelled t (wd_process w) = true -> ends w i).
    { intros w0 t0 c f N0 K0 C0. destruct (up c) as [n|] eqn:E.
      - eapply (Step w0 t0 _ (Compute c c) _ (VCompute i c c)); [exact N0|exact K0|exact C0| |reflexivity|reflexivity|].
        + unfold tick_step. cbn [tk_phase tk_clock tk_fired]. rewrite Z.leb_refl, E. reflexivity.
        + intros w' N' C'. eapply S1; [exact N'|eapply with_ticker_of; exact K0|exact C'].
      - eapply (Step w0 t0 _ (Compute c c) _ (VCompute i c c)); [exact N0|exact K0|exact C0| |reflexivity|reflexivity|].
        + unfold tick_step. cbn [tk_phase tk_clock tk_fired]. rewrite Z.leb_refl, E. reflexivity.
        + intros w' N' C'. eapply ends_now; [exact N'|]. eapply with_ticker_end; [eapply with_ticker_of; exact K0|]. auto. }
    assert (S3 : forall w t u c f, nth_error (pr_tasks (wd_process w)) i = Some t -> ticker_of t = (Some up, Some (mk_ticker (Resting u) c f)) ->
              token_cancelled t (wd_process w) = true -> ends w i).
    { intros w0 t0 u c f N0 K0 C0. eapply (Step w0 t0 _ (Rested (Z.max c u)) _ (VRested i (Z.max c u))); [exact N0|exact K0|exact C0| |reflexivity|reflexivity|].
      - unfold tick_step. cbn [tk_phase tk_clock tk_fired].
        replace (c <=? Z.max c u) with true by (symmetry; apply Z.leb_le; lia).
        replace (u <=? Z.max c u) with true by (symmetry; apply Z.leb_le; lia). reflexivity.
      - intros w' N' C'. eapply S2; [exact N'|eapply with_ticker_of; exact K0|exact C']. }
    destruct k as [[|n u|n|u| |] c f]; eauto.
    - (* its calls return, then it comes back from its action *)
      set (turn := length (firings (ta_body t))).
      destruct (finish_calls 0 i t (map ak_call (filter (fun a => Nat.eqb (ak_task a) i && Nat.eqb (ak_turn a) turn) (wd_asks w))) es w H Ht) as [es1 [w1 [R1 [O1 [_ [P1 P2]]]]]].
      { intros c0 Hc0. pose proof (turn_asks utc upcoming show hash p es w i t turn H Ht) as E.
        apply in_map_iff in Hc0. destruct Hc0 as [a [<- Ha]].
        apply (in_map (fun a => option_map cl_op (call_at w i (ak_call a)))) in Ha. rewrite E in Ha. apply in_map_iff in Ha. destruct Ha as [y [Ey _]].
        unfold present. destruct (call_at w i (ak_call a)); [eauto|discriminate]. }
      assert (Hd : forallb is_done (replies i turn w1) = true).
      { rewrite replies_at, (proj1 (proj2 (proj2 P1))). apply forallb_forall. intros r Hr. apply in_map_iff in Hr. destruct Hr as [a [<- Ha]].
        destruct (P2 (ak_call a) (in_map ak_call _ _ Ha)) as [x [r [X1 X2]]]. rewrite X1. cbn. rewrite X2. reflexivity. }
      assert (Ht1 : nth_error (pr_tasks (wd_process w1)) i = Some t) by (rewrite (proj1 P1); exact Ht).
      assert (Hc1 : token_cancelled t (wd_process w1) = true) by (rewrite (proj1 P1); exact Hc).
      assert (He : ends w1 i).
      { destruct (existsb is_panic (replies i turn w1)) eqn:Ep.
        - eapply (Step w1 t _ (Acted c true) _ (VActed i c)); [exact Ht1|exact Hk|exact Hc1| | |reflexivity|].
          + unfold tick_step. cbn [tk_phase tk_clock tk_fired]. rewrite Z.leb_refl. reflexivity.
          + intro now. cbn [world_step]. unfold world_acted. rewrite Ht1. fold turn. cbn zeta. rewrite Ep. reflexivity.
          + intros w' N' C'. eapply ends_now; [exact N'|]. eapply with_ticker_end; [eapply with_ticker_of; exact Hk|]. auto.
        - assert (V : forall now, vstep now w1 (VActed i c) = onp now (ATick i (Acted c false)) w1).
          { intro now. cbn [world_step]. unfold world_acted. rewrite Ht1. fold turn. cbn zeta. rewrite Ep, Hd. reflexivity. }
          destruct (0 <? dt_diff n c) eqn:Ed.
          + eapply (Step w1 t _ (Acted c false) _ (VActed i c)); [exact Ht1|exact Hk|exact Hc1| |exact V|reflexivity|].
            * unfold tick_step. cbn [tk_phase tk_clock tk_fired]. rewrite Z.leb_refl, Ed. reflexivity.
            * intros w' N' C'. eapply S3; [exact N'|eapply with_ticker_of; exact Hk|exact C'].
          + eapply (Step w1 t _ (Acted c false) _ (VActed i c)); [exact Ht1|exact Hk|exact Hc1| |exact V|reflexivity|].
            * unfold tick_step. cbn [tk_phase tk_clock tk_fired]. rewrite Z.leb_refl, Ed. reflexivity.
            * intros w' N' C'. eapply S2; [exact N'|eapply with_ticker_of; exact Hk|exact C']. }
      destruct He as [es2 [w2 [t2 [R2 [[t0 [N0 O2]] [A2 [N2 D2]]]]]]]. assert (t0 = t) as -> by congruence.
      exists (es1 ++ es2), w2, t2. split; [rewrite vrun_app, R1; exact R2|]. split; [exists t; split; [exact Ht|apply owns_app; assumption]|].
      split; [eapply aside_trans; [apply aside_same; exact (proj1 P1)|exact A2]|]. auto.
    - eapply ends_now; [exact Ht|]. eapply with_ticker_end; [exact Hk|]. auto.
    - eapply ends_now; [exact Ht|]. eapply with_ticker_end; [exact Hk|]. auto.
  Qed.

  (** * Any task that has been told to stop, and all of them *)
  Lemma shut_tokens es w t : vrun world_init es = Some w -> In t (pr_tasks (wd_process w)) ->
    (token_cancelled t (wd_process w) = true <-> shut (ta_token t) (program es)).
  Proof.
    intros H Hi. destruct (process_thm utc upcoming show hash p es w H) as [pes [rs [Hr [_ Hn]]]].
    destruct (run_inv utc upcoming show pes (wd_process w) rs Hr) as [Hm _ Hb Hc _ _ _].
    specialize (Hb t Hi). rewrite <- Hm, nth_error_map in Hb. unfold token_cancelled.
    destruct (nth_error (pr_rexecutors (wd_process w)) (ta_token t)) as [x|] eqn:E; [|discriminate].
    rewrite (Hc _ _ E), <- Hn. unfold shut, shuts, not_of_tasks. split; intros [now [ev [H1 H2]]]; exists now, ev; (split; [|exact H2]).
    - apply filter_In. split; [exact H1|]. destruct H2 as [-> | ->]; reflexivity.
    - apply filter_In in H1. exact (proj1 H1).
  Qed.
  Lemma shut_worker es w i t e wk : vrun world_init es = Some w -> nth_error (pr_tasks (wd_process w)) i = Some t -> ta_body t = BWorker e wk ->
    shut (ta_token t) (program es) -> w_life wk = Working -> w_cancelled wk = true.
  Proof.
    intros H Ht Eb Hs El. destruct (process_thm utc upcoming show hash p es w H) as [pes [rs [Hr [_ Hn]]]].
    pose proof (C79_told_exactly _ _ utc upcoming show pes (wd_process w) rs i t Hr Ht) as K. rewrite Eb in K. apply (K El).
    rewrite <- Hn in Hs. destruct Hs as [now [ev [H1 H2]]]. exists now, ev. split; [|exact H2]. apply filter_In in H1. exact (proj1 H1).
  Qed.
  Definition limits_ok (t : tsk) : Prop := forall e l, purpose t = RunsJobs e -> ex_max_concurrency (xe_consts e) = Some l -> 0 <= l.

  Theorem task_ends es w i t : vrun world_init es = Some w -> nth_error (pr_tasks (wd_process w)) i = Some t ->
    shut (ta_token t) (program es) -> limits_ok t -> ends w i.
  Proof.
    intros H Ht Hs Hlim.
    assert (Hc : token_cancelled t (wd_process w) = true) by (apply (shut_tokens es w t H (nth_error_In _ _ Ht)); exact Hs).
    destruct (ta_body t) as [e wk|e sc z d k|sc cfg k] eqn:Eb.
    - destruct (worker_stops 0 es w i t e wk H Ht Eb) as [es' [w' [t' [R [O [_ [A [N D]]]]]]]].
      + pose proof (shut_worker es w i t e wk H Ht Eb Hs) as Hw. destruct (w_life wk); [left; auto|right; discriminate..].
      + intros l El. apply (Hlim e l); [unfold purpose; rewrite Eb; reflexivity|exact El].
      + exists es', w', t'. split; [exact R|]. split; [eauto|]. auto.
    - eapply loop_stops; [exact H|exact Ht|unfold ticker_of; rewrite Eb; reflexivity|exact Hc].
    - eapply loop_stops; [exact H|exact Ht|unfold ticker_of; rewrite Eb; reflexivity|exact Hc].
  Qed.

  Lemma own_by_itself b i (ev : world_event Schedule Zone) : own b i ev -> by_itself ev.
  Proof. destruct ev; cbn; auto. Qed.
  Lemma by_itself_program (es' : list (time * world_event Schedule Zone)) : Forall (fun x => by_itself (snd x)) es' -> program es' = [].
  Proof.
    induction 1 as [|[now ev] l Hx Hl IH]; [reflexivity|]. unfold program in *. cbn [flat_map snd] in *. rewrite IH. destruct ev; try reflexivity. destruct Hx.
  Qed.
  Lemma shut_app es es' : program es' = [] -> program (Schedule := Schedule) (Zone := Zone) (es ++ es') = program es.
  Proof. intro E. unfold program in *. rewrite flat_map_app, E, app_nil_r. reflexivity. Qed.

  Theorem all_end : forall n es w, vrun world_init es = Some w -> (forall t, In t (pr_tasks (wd_process w)) -> limits_ok t) ->
    exists es' w', vrun w es' = Some w' /\ Forall (fun x => by_itself (snd x)) es'
      /\ length (pr_tasks (wd_process w')) = length (pr_tasks (wd_process w))
      /\ forall i t, nth_error (pr_tasks (wd_process w)) i = Some t ->
         exists t', nth_error (pr_tasks (wd_process w')) i = Some t' /\ ta_token t' = ta_token t /\ purpose t' = purpose t
           /\ ((i < n)%nat -> shut (ta_token t) (program es) -> ended t' \/ died t')
           /\ ((n <= i)%nat \/ ~ shut (ta_token t) (program es) -> t' = t).
  Proof.
    induction n as [|n IH]; intros es w H Hlim.
    - exists [], w. split; [reflexivity|]. split; [constructor|]. split; [reflexivity|]. intros i t Ht. exists t. do 3 (split; [first [exact Ht|reflexivity]|]). split; [lia|auto].
    - destruct (IH es w H Hlim) as [es1 [w1 [R1 [B1 [L1 D1]]]]].
      assert (H1 : vrun world_init (es ++ es1) = Some w1) by (rewrite vrun_app, H; exact R1).
      pose proof (shut_app es es1 (by_itself_program es1 B1)) as Ep.
      destruct (nth_error (pr_tasks (wd_process w)) n) as [t|] eqn:Et.
      2: { exists es1, w1. split; [exact R1|]. split; [exact B1|]. split; [exact L1|]. intros i t Ht. destruct (D1 i t Ht) as [t' [N [T [P [E U]]]]].
           exists t'. do 3 (split; [assumption|]). assert (i <> n) by congruence. split; [intros; apply E; [lia|assumption]|].
           intros [?|?]; apply U; [left; lia|auto]. }
      destruct (D1 n t Et) as [t' [N [T [P [E U]]]]]. specialize (U (or_introl (le_n _))). subst t'.
      assert (Hdec : shut (ta_token t) (program es) \/ ~ shut (ta_token t) (program es)).
      { rewrite <- (shut_tokens es w t H (nth_error_In _ _ Et)). destruct (token_cancelled t (wd_process w)); [left; reflexivity|right; discriminate]. }
      destruct Hdec as [Hs|Hs].
      + destruct (task_ends _ w1 n t H1 N ltac:(rewrite Ep; exact Hs) (Hlim t (nth_error_In _ _ Et))) as [es2 [w2 [t2 [R2 [[t0 [N0 O2]] [A2 [N2 D2]]]]]]].
        exists (es1 ++ es2), w2. split; [rewrite vrun_app, R1; exact R2|].
        split; [apply Forall_app; split; [exact B1|eapply Forall_impl; [|exact O2]; intros x Hx; eapply own_by_itself; exact Hx]|].
        destruct A2 as [_ [_ [A3 [A4 A5]]]]. split; [congruence|]. intros i ti Hti. destruct (Nat.eq_dec i n) as [->|Hne].
        * assert (ti = t) as -> by congruence. exists t2. split; [exact N2|].
          assert (Hk : ta_token t2 = ta_token t /\ purpose t2 = purpose t).
          { destruct (A5 t t2 N N2) as [K1 [_ K2]]. auto. }
          destruct Hk as [K1 K2]. split; [exact K1|]. split; [exact K2|]. split; [auto|]. intros [?|?]; [lia|contradiction].
        * destruct (D1 i ti Hti) as [t' [N' [T' [P' [E' U']]]]]. exists t'. split; [rewrite A4 by exact Hne; exact N'|].
          do 2 (split; [assumption|]). split; [intros; apply E'; [lia|assumption]|]. intros [?|?]; apply U'; [left; lia|auto].
      + exists es1, w1. split; [exact R1|]. split; [exact B1|]. split; [exact L1|]. intros i ti Ht. destruct (D1 i ti Ht) as [t' [N' [T' [P' [E' U']]]]].
        exists t'. do 3 (split; [assumption|]). split.
        * intros Hi Hsh. destruct (Nat.eq_dec i n) as [->|Hne]; [assert (ti = t) as -> by congruence; contradiction|apply E'; [lia|assumption]].
        * intros [?|?]; apply U'; [left; lia|auto].
  Qed.
End Ends.
