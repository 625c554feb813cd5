(** The invariant of a whole program on in-memory backends. *)
From Coq Require Import Lia.
From Verif Require Import Base Chrono Types Query Memory MemSpec MemNotify MemConc MemConcSpec MemConcProofs MemConcThms MemWake Codec Builder
  Runner RunnerSpec WorkerProofs Ticker Pruner ApiProofs App AppSpec AppProofs World WorldSpec WorldProofs.

(** A stream that yields a job after its step has just been given it. *)
Lemma yields_handed p s k now j : length (c_streams s) = length (m_subs (c_mem s)) ->
  nth_error (c_streams (fst (conc_step p s (LStream k now)))) k = Some (SYield (Ok j)) ->
  snd (conc_step p s (LStream k now)) = [EvHandOut k j].
Proof.
  intros Hl H. cbn [conc_step] in *. destruct (nth_error (c_streams s) k) as [ph|] eqn:Ek.
  2:{ cbn in H. congruence. }
  destruct (nth_error (m_subs (c_mem s)) k) as [sb|] eqn:Es.
  2:{ exfalso. apply nth_error_None in Es. apply nth_lt in Ek. lia. }
  unfold stream_step in *.
  destruct ph as [|t|t rd d|t rd d|t rd sl d|r|]; cbn [fst snd c_streams] in *;
    try (rewrite (nth_set_same _ _ _ _ Ek) in H; discriminate).
  - destruct (next_available (sub_executor sb) (c_mem s)); cbn [fst snd c_streams] in *;
      rewrite (nth_set_same _ _ _ _ Ek) in H; discriminate.
  - destruct (_ <=? delta); cbn [fst snd c_streams] in *; rewrite (nth_set_same _ _ _ _ Ek) in H; discriminate.
  - destruct (mem_load p now (c_mem s) (sub_executor sb)) as [m1 [[j0|]|err|]]; cbn [fst snd c_streams] in *;
      rewrite (nth_set_same _ _ _ _ Ek) in H; try discriminate. injection H as <-. reflexivity.
  - destruct (_ <=? now); cbn [fst snd c_streams] in *; rewrite (nth_set_same _ _ _ _ Ek) in H; discriminate.
Qed.

Lemma handed_in k j tr : In j (handed k tr) -> In (EvHandOut k j) tr.
Proof.
  unfold handed. intro H. apply in_flat_map in H. destruct H as [ev [Hev Hj]]. destruct ev as [k' j'| | |]; try destruct Hj.
  destruct (Nat.eqb_spec k' k) as [->|]; [|destruct Hj]. destruct Hj as [->|[]]. exact Hev.
Qed.

Section Inv.
  Context {Schedule Zone : Type}.
  Variable utc : Zone.
  Variable upcoming : Schedule -> Zone -> time -> option time.
  Variable show : Z -> string.
  Variable hash : forall e : executor, xe_data e -> Z.
  Variable p : profile.
  Notation world := (world Schedule Zone).
  Notation step := (app_step utc upcoming show).
  Notation run := (app_run utc upcoming show).
  Notation tsk := (task Schedule Zone).
  Notation wrun e := (worker_run (xe_codec e) (xe_fns e) show (ex_max_concurrency (xe_consts e))).
  Notation wstep e := (worker_step (xe_codec e) (xe_fns e) show (ex_max_concurrency (xe_consts e))).
  Notation onp := (on_process utc upcoming show).
  Notation ons := (on_store (Schedule := Schedule) (Zone := Zone) p).
  Notation vstep := (world_step utc upcoming show hash p).
  Notation vrun := (world_run utc upcoming show hash p).

  (** * The view of a task *)
  Definition tv (t : tsk) : view :=
    mk_view (ta_backend t)
      (match ta_body t with BWorker e w => Some (ex_name (xe_consts e), jobs_taken w) | _ => None end)
      (owed hash (ta_body t)).

  Lemma told_view h (t : tsk) : tv (told show h t) = tv t.
  Proof.
    unfold told. destruct (Nat.eqb (ta_token t) h); [|reflexivity].
    destruct t as [tb tk [x w|x sc z data k|sc cfg k]]; cbn [ta_body]; auto.
    destruct (wstep x w WCancel) as [w'|] eqn:E; [|reflexivity].
    unfold worker_step in E. destruct (w_life w); try discriminate. injection E as <-. reflexivity.
  Qed.

  (** The effect of a worker's step on what it has taken and reported. *)
  Lemma wstep_taken {D M} (c : codec D M) fns limit w e w' : worker_step c fns show limit w e = Some w' ->
    (forall m, e <> WFetch m) -> e <> WYield ->
    (jobs_taken w' = jobs_taken w ++ match e with WTake (MJob j) => [j] | _ => [] end)
    /\ (forall n now1 now2 o, e = WEnd n now1 now2 o ->
          (exists op, reports w' = reports w ++ [(n, op)] /\ flight_of n (w_flights w') = Some (FReporting op)
             /\ new_call (LCall op) = [op])
          \/ (reports w' = reports w /\ w_flights w' = []))
    /\ ((forall n now1 now2 o, e <> WEnd n now1 now2 o) -> reports w' = reports w).
  Proof.
    intros H Hf Hy. unfold worker_step in H. destruct (w_life w); try discriminate.
    destruct e as [m|m| | | | |n|n n1 n2 o|n r|]; try (exfalso; apply (Hf m); reflexivity); try (exfalso; apply Hy; reflexivity).
    - destruct (w_transit w); [discriminate|]. destruct (may_poll limit w); [|discriminate]. injection H as <-.
      unfold jobs_taken, reports, push_flight. cbn [w_seen flat_map]. split; [|split; [discriminate|reflexivity]].
      destruct m; cbn; [reflexivity|now rewrite app_nil_r].
    - destruct (w_transit w); [discriminate|]. destruct (may_poll limit w); [|discriminate]. injection H as <-.
      unfold jobs_taken, reports, crash. cbn [w_seen]. rewrite app_nil_r. split; [reflexivity|split; [discriminate|reflexivity]].
    - injection H as <-. unfold jobs_taken, reports. cbn [w_seen]. rewrite app_nil_r. split; [reflexivity|split; [discriminate|reflexivity]].
    - destruct (w_open w && _ && _); [|discriminate]. injection H as <-.
      unfold jobs_taken, reports. cbn [w_seen]. rewrite app_nil_r. split; [reflexivity|split; [discriminate|reflexivity]].
    - assert (K : jobs_taken w' = jobs_taken w /\ reports w' = reports w).
      { unfold jobs_taken, reports.
        destruct (flight_of n (w_flights w)) as [[[j|err]|x|op]|]; try discriminate; [|injection H as <-; split; reflexivity].
        destruct (begin_job c fns j); injection H as <-; cbn; auto. }
      rewrite app_nil_r. destruct K. split; [assumption|]. split; [discriminate|auto].
    - destruct (flight_of n (w_flights w)) as [[m|x|op]|] eqn:Ef; try discriminate.
      assert (H' : match report show n1 n2 x o with
                   | Some op => Some (progress n (Some (FReporting op)) [Reported n op] (progress n (Some (FExecuting x)) [Outcome n o] w))
                   | None => Some (crash (progress n (Some (FExecuting x)) [Outcome n o] w)) end = Some w')
        by (destruct o; destruct (x_timeout x); (exact H || discriminate)).
      clear H. rewrite app_nil_r. destruct (report show n1 n2 x o) as [op|] eqn:Er; injection H' as <-.
      + unfold jobs_taken, reports. cbn [w_seen progress app flat_map]. split; [reflexivity|].
        split; [|intro K; exfalso; eapply K; reflexivity].
        intros n' m1 m2 o' He. injection He as <- <- <- <-. left. exists op.
        split; [reflexivity|]. split.
        * cbn [w_flights]. assert (forall l ph q, flight_of n l = Some q -> flight_of n (set_flight n (Some ph) l) = Some ph) as Hsf.
          { clear. induction l as [|[k q] l IH]; intros ph q0 H; cbn in *; [discriminate|].
            destruct (Nat.eqb k n) eqn:E; cbn; rewrite E; eauto. }
          eapply Hsf. eapply Hsf. exact Ef.
        * unfold report, report_error in Er. clear - Er.
          repeat match type of Er with
                 | context [match ?x with _ => _ end] => destruct x; try discriminate
                 end; injection Er as <-; reflexivity.
      + unfold jobs_taken, reports, crash. cbn [w_seen progress app flat_map w_flights]. split; [reflexivity|].
        split; [|intro K; exfalso; eapply K; reflexivity]. intros. right. auto.
    - destruct (flight_of n (w_flights w)) as [[m|x|op]|]; try discriminate.
      assert (K : jobs_taken w' = jobs_taken w /\ reports w' = reports w)
        by (destruct r; injection H as <-; split; reflexivity).
      rewrite app_nil_r. destruct K. split; [assumption|]. split; [discriminate|auto].
    - destruct (w_open w); [discriminate|]. destruct (w_flights w); [|discriminate]. injection H as <-.
      rewrite app_nil_r. split; [reflexivity|]. split; [discriminate|reflexivity].
  Qed.

  (** What a step of a worker task does to its view. *)
  Lemma worker_view (t : tsk) e t' : worker_task_step show t e = Some t' ->
    exists x w w', ta_body t = BWorker x w /\ wstep x w e = Some w' /\ t' = mk_task (ta_backend t) (ta_token t) (BWorker x w').
  Proof.
    unfold worker_task_step. intro H. destruct t as [tb tk [x w|x sc z data k|sc cfg k]]; cbn [ta_body ta_token ta_backend] in *; [|destruct e; discriminate..].
    exists x, w. destruct (wstep x w e) as [w'|] eqn:E; [|destruct e; discriminate].
    exists w'. split; [reflexivity|]. split; [reflexivity|]. destruct e; congruence.
  Qed.

  Lemma worker_view_same (t : tsk) e t' : worker_task_step show t e = Some t' ->
    (forall m, e <> WFetch m) -> e <> WYield -> (forall j, e <> WTake (MJob j)) -> (forall n n1 n2 o, e <> WEnd n n1 n2 o) ->
    tv t' = tv t.
  Proof.
    intros H H1 H2 H3 H4. destruct (worker_view _ _ _ H) as [x [w [w' [Eb [Es ->]]]]].
    destruct (wstep_taken _ _ _ _ _ _ Es H1 H2) as [K1 [_ K3]]. unfold tv. cbn [ta_backend ta_body owed]. rewrite Eb. cbn [owed].
    rewrite (K3 H4). do 2 f_equal. rewrite K1. destruct e as [m| | | | | | | | |]; try (now rewrite app_nil_r).
    destruct m as [j|]; [exfalso; eapply H3; reflexivity|now rewrite app_nil_r].
  Qed.

  (** The calls of a firing. *)
  Lemma deeds_cron e s z data k c next : deeds (Schedule := Schedule) (Zone := Zone) hash (BCron e s z data k) c next = cron_calls hash e data next.
  Proof.
    unfold deeds, cron_calls, request, cron_builder. cbn.
    destruct (enc_data (xe_codec e) data); reflexivity.
  Qed.

  Lemma tick_view stop (t : tsk) e t' : tick_task_step utc upcoming stop t e = Some t' ->
    ta_backend t' = ta_backend t /\ ta_token t' = ta_token t /\ v_worker (tv t) = None /\ v_worker (tv t') = None
    /\ ((forall c, e <> Wake c) -> tv t' = tv t)
    /\ (forall c, e = Wake c -> exists next,
          firings (ta_body t') = (c, next) :: firings (ta_body t)
          /\ owed hash (ta_body t') = owed hash (ta_body t) ++ map (fun o => (length (firings (ta_body t')), o)) (deeds hash (ta_body t') c next)
          /\ Forall (fun o => new_call (LCall o) = [o]) (deeds hash (ta_body t') c next)).
  Proof.
    intro H. unfold tick_task_step in H. destruct t as [tb tk [x w|x sc z data k|sc cfg k]]; cbn [ta_body ta_token ta_backend] in *.
    - destruct e, stop; discriminate.
    - destruct (tick_step (upcoming sc z) k e) as [k'|] eqn:E; [|destruct e, stop; discriminate].
      assert (t' = mk_task tb tk (BCron x sc z data k')) as -> by (destruct e, stop; congruence). clear H.
      cbn [ta_backend ta_token tv v_worker ta_body]. do 4 (split; [reflexivity|]). unfold tick_step in E. split.
      + intro Hne. unfold tv. cbn [ta_backend ta_body owed]. do 2 f_equal.
        destruct (tk_phase k), e; try discriminate; try (exfalso; eapply Hne; reflexivity);
          repeat match type of E with
                 | context [if ?x then _ else _] => destruct x; try discriminate
                 | context [match ?x with _ => _ end] => destruct x; try discriminate
                 end; injection E as <-; reflexivity.
      + intros c ->. destruct (tk_phase k); try discriminate. destruct (_ && _); [|discriminate]. injection E as <-.
        exists next. cbn [firings tk_fired owed per_firing length]. split; [reflexivity|]. rewrite deeds_cron. split; [reflexivity|].
        unfold cron_calls. destruct (enc_data (xe_codec x) data); constructor; [reflexivity|constructor].
    - destruct (tick_step (upcoming sc utc) k e) as [k'|] eqn:E; [|destruct e, stop; discriminate].
      assert (t' = mk_task tb tk (BPruner sc cfg k')) as -> by (destruct e, stop; congruence). clear H.
      cbn [ta_backend ta_token tv v_worker ta_body]. do 4 (split; [reflexivity|]). unfold tick_step in E. split.
      + intro Hne. unfold tv. cbn [ta_backend ta_body owed]. do 2 f_equal.
        destruct (tk_phase k), e; try discriminate; try (exfalso; eapply Hne; reflexivity);
          repeat match type of E with
                 | context [if ?x then _ else _] => destruct x; try discriminate
                 | context [match ?x with _ => _ end] => destruct x; try discriminate
                 end; injection E as <-; reflexivity.
      + intros c ->. destruct (tk_phase k); try discriminate. destruct (_ && _); [|discriminate]. injection E as <-.
        exists next. cbn [firings tk_fired owed per_firing length deeds]. split; [reflexivity|]. split; [reflexivity|].
        rewrite Forall_forall. intros o Ho. apply in_map_iff in Ho. destruct Ho as [ps [<- _]]. reflexivity.
  Qed.

  (** * Everything but the links *)
  Record core (w : world) : Prop := mk_core {
    k_proc : exists rs, run process_init (process_events (wd_log w)) = Some (wd_process w, rs);
    k_store : forall b s, nth_error (wd_stores w) b = Some s -> s = conc_run p c_init (labels b (wd_log w));
    k_none : forall b, (length (wd_stores w) <= b)%nat -> labels b (wd_log w) = [];
    k_rx : forall r, In r (pr_rexecutors (wd_process w)) -> (rx_backend r < length (wd_stores w))%nat;
    k_task : forall t, In t (pr_tasks (wd_process w)) -> (ta_backend t < length (wd_stores w))%nat
  }.

  Lemma process_events_snoc log now a :
    process_events (log ++ [(now, a)]) = process_events (Schedule := Schedule) (Zone := Zone) log ++ match a with OnProcess ev => [(now, ev)] | _ => [] end.
  Proof. unfold process_events. rewrite flat_map_app. cbn. now rewrite app_nil_r. Qed.
  Lemma labels_snoc b log now a :
    labels b (log ++ [(now, a)]) = labels (Schedule := Schedule) (Zone := Zone) b log ++ match a with OnStore b' l => if Nat.eqb b' b then [l] else [] | _ => [] end.
  Proof. unfold labels. rewrite flat_map_app. cbn. now rewrite app_nil_r. Qed.

  Definition LL (w : world) : nat -> list label := fun b => labels b (wd_log w).

  (** A step of the process. *)
  Lemma onp_core now ev w w' : onp now ev w = Some w' -> core w ->
    (forall b, ev = ANew b -> (b < length (wd_stores w))%nat) ->
    core w' /\ wd_stores w' = wd_stores w /\ wd_streams w' = wd_streams w /\ wd_asks w' = wd_asks w
    /\ (forall b, LL w' b = LL w b) /\ shape utc upcoming show now (wd_process w) ev (wd_process w').
  Proof.
    unfold on_process. intros H [K1 K2 K3 K4 K5] Hb.
    destruct (step now (wd_process w) ev) as [[s r]|] eqn:E; [|discriminate]. injection H as <-.
    pose proof (step_shape utc upcoming show now _ _ _ _ E) as Sh.
    assert (HL : forall b, labels b (wd_log w ++ [(now, OnProcess ev)]) = labels b (wd_log w)).
    { intro b. rewrite labels_snoc. apply app_nil_r. }
    split; [|split; [reflexivity|split; [reflexivity|split; [reflexivity|split; [exact HL|exact Sh]]]]].
    constructor; cbn [wd_process wd_stores wd_log].
    - destruct K1 as [rs K1]. exists (rs ++ [r]). rewrite process_events_snoc.
      eapply run_join; [exact K1|]. cbn [app_run]. rewrite E. reflexivity.
    - intros b s0 H. rewrite HL. auto.
    - intros b H. rewrite HL. auto.
    - intros x Hx. destruct Sh.
      + rewrite H1 in Hx. apply in_app_or in Hx. destruct Hx as [Hx|[<-|[]]]; [auto|]. cbn. eapply Hb. eassumption.
      + rewrite H1 in Hx. auto.
      + rewrite H2 in Hx. apply in_set_nth in Hx. destruct Hx as [->|Hx]; [|auto]. cbn. apply K4. eapply nth_error_In; eassumption.
      + rewrite H1 in Hx. apply in_set_nth in Hx. destruct Hx as [->|Hx]; [|auto]. cbn. apply K4. eapply nth_error_In; eassumption.
      + rewrite H0 in Hx. auto.
    - intros x Hx. destruct Sh.
      + rewrite H0 in Hx. auto.
      + rewrite H3 in Hx. apply in_app_or in Hx. destruct Hx as [Hx|Hx]; [auto|]. destruct (H4 x Hx) as [_ [-> _]].
        apply K4. eapply nth_error_In; eassumption.
      + rewrite H3 in Hx. apply in_map_iff in Hx. destruct Hx as [y [<- Hy]]. destruct (told_same show h y) as [_ [-> _]]. auto.
      + rewrite H2 in Hx. auto.
      + rewrite H2 in Hx. apply in_set_nth in Hx. destruct Hx as [->|Hx]; [|auto].
        assert (ta_backend t' = ta_backend t) as ->.
        { destruct H3 as [[e0 [_ H3]]|[e0 [_ H3]]].
          - destruct (worker_view _ _ _ H3) as [? [? [? [_ [_ ->]]]]]. reflexivity.
          - apply (tick_view _ _ _ _ H3). }
        apply K5. eapply nth_error_In; eassumption.
  Qed.

  (** A step of a store. *)
  Lemma ons_core now b l w w' : ons now b l w = Some w' -> core w ->
    core w' /\ wd_process w' = wd_process w /\ wd_streams w' = wd_streams w /\ wd_asks w' = wd_asks w
    /\ (forall b', LL w' b' = upd (LL w) b l b')
    /\ (exists s, nth_error (wd_stores w) b = Some s /\ s = conc_run p c_init (LL w b)
          /\ nth_error (wd_stores w') b = Some (fst (conc_step p s l))).
  Proof.
    unfold on_store. intros H [K1 K2 K3 K4 K5]. destruct (nth_error (wd_stores w) b) as [s|] eqn:E; [|discriminate].
    injection H as <-.
    assert (HL : forall b', labels b' (wd_log w ++ [(now, OnStore b l)]) = upd (LL w) b l b').
    { intro b'. rewrite labels_snoc. unfold upd, LL. destruct (Nat.eqb b b'); [reflexivity|apply app_nil_r]. }
    split; [|split; [reflexivity|split; [reflexivity|split; [reflexivity|split; [exact HL|]]]]].
    2:{ exists s. cbn [wd_stores]. split; [exact eq_refl|]. split; [apply K2; exact E|]. eapply nth_set_same; exact E. }
    constructor; cbn [wd_process wd_stores wd_log]; try rewrite set_nth_length.
    - destruct K1 as [rs K1]. exists rs. rewrite process_events_snoc, app_nil_r. exact K1.
    - intros b' s' H. rewrite HL. unfold upd, LL. destruct (nth_set_cases _ _ _ _ _ H) as [[-> [-> _]]|[Hne H']].
      + rewrite Nat.eqb_refl, conc_run_app. cbn [conc_run]. rewrite <- (K2 _ _ E). reflexivity.
      + destruct (Nat.eqb_spec b b'); [congruence|]. auto.
    - intros b' H. rewrite HL. unfold upd, LL. destruct (Nat.eqb_spec b b') as [<-|]; [|auto].
      exfalso. apply nth_lt in E. lia.
    - exact K4.
    - exact K5.
  Qed.

  Lemma link_ext w w' V St A O O' : (forall b, LL w' b = LL w b) -> (forall b, O' b = O b) ->
    linked p V St A (LL w) O -> linked p V St A (LL w') O'.
  Proof. intros H Ho J. eapply linked_same; [..|exact J]; intros; rewrite ?H; auto. Qed.

  Lemma link_upd w w' V St A O b l : (forall b', LL w' b' = upd (LL w) b l b') ->
    linked p V St A (upd (LL w) b l) O -> linked p V St A (LL w') O.
  Proof. intros H J. eapply linked_same; [..|exact J]; intros; rewrite ?H; auto. Qed.

  (** A step of a store that nobody here notices. *)
  Lemma ons_quiet now b l w w' V O : ons now b l w = Some w' -> core w ->
    new_call l = [] -> new_sub l = [] ->
    (forall s, nth_error (wd_stores w) b = Some s -> forall k j, ~ In (EvHandOut k j) (snd (conc_step p s l))) ->
    linked p V (wd_streams w) (wd_asks w) (LL w) O -> linked p V (wd_streams w) (wd_asks w) (LL w') O.
  Proof.
    intros H K Hc Hn Hh J. destruct (ons_core _ _ _ _ _ H K) as [_ [_ [_ [_ [HL [s [Es [Er _]]]]]]]].
    eapply linked_same; [..|exact J]; intros; rewrite ?HL; auto; unfold upd; destruct (Nat.eqb_spec b b0) as [<-|]; auto.
    - rewrite names_snoc, Hn. apply app_nil_r.
    - rewrite calls_snoc, Hc. apply app_nil_r.
    - rewrite trace_snoc, handed_app. replace (handed k (snd _)) with (@nil job); [apply app_nil_r|]. symmetry.
      destruct (handed k (snd (conc_step p (conc_run p c_init (LL w b)) l))) as [|j0 rest] eqn:E; [reflexivity|]. exfalso.
      eapply (Hh s Es k j0). apply handed_in. rewrite Er, E. left. reflexivity.
    - rewrite trace_snoc, given_app. replace (given (snd _)) with (@nil job); [apply app_nil_r|]. symmetry.
      destruct (given (snd (conc_step p (conc_run p c_init (LL w b)) l))) as [|j0 rest] eqn:E; [reflexivity|]. exfalso.
      assert (Hj : In j0 (given (snd (conc_step p (conc_run p c_init (LL w b)) l)))) by (rewrite E; left; reflexivity).
      unfold given in Hj. apply in_flat_map in Hj. destruct Hj as [ev [Hev Hj]]. destruct ev as [k' j'| | |]; try (exact Hj).
      eapply (Hh s Es k' j'). rewrite Er. exact Hev.
  Qed.

  (** A task asks. *)
  Lemma ask_for_link now i n b o w w' V v O : ask_for p now i n b o w = Some w' -> core w ->
    nth_error V i = Some v -> v_backend v = b -> new_call (LCall o) = [o] ->
    linked p V (wd_streams w) (wd_asks w) (LL w) O ->
    core w' /\ wd_process w' = wd_process w /\ wd_streams w' = wd_streams w
    /\ linked p (set_nth i (mk_view b (v_worker v) (v_owed v ++ [(n, o)])) V) (wd_streams w') (wd_asks w') (LL w') O.
  Proof.
    unfold ask_for. intros H K Hv Hb Ho J. destruct (nth_error (wd_stores w) b) as [s|] eqn:Es; [|discriminate].
    destruct (ons now b (LCall o) w) as [w1|] eqn:E; [|discriminate]. injection H as <-. subst b.
    destruct (ons_core _ _ _ _ _ E K) as [K' [P1 [P2 [P3 [HL [s' [Es' [Er _]]]]]]]].
    assert (s' = s) as -> by congruence.
    cbn [wd_process wd_streams wd_asks wd_log]. split; [destruct K'; constructor; assumption|]. split; [exact P1|]. split; [exact P2|].
    assert (El : length (c_calls s) = length (calls_of (LL w (v_backend v)))).
    { rewrite Er, <- (proj1 (proj2 (store_run p (LL w (v_backend v))))). symmetry. apply map_length. }
    rewrite El, P2, P3. eapply link_upd; [exact HL|]. apply linked_ask; assumption.
  Qed.

  Lemma ask_all_link now i n b : forall l w w' V v O, ask_all p now i n b l w = Some w' -> core w ->
    nth_error V i = Some v -> v_backend v = b -> Forall (fun o => new_call (LCall o) = [o]) l ->
    linked p V (wd_streams w) (wd_asks w) (LL w) O ->
    core w' /\ wd_process w' = wd_process w /\ wd_streams w' = wd_streams w
    /\ linked p (set_nth i (mk_view b (v_worker v) (v_owed v ++ map (fun o => (n, o)) l)) V) (wd_streams w') (wd_asks w') (LL w') O.
  Proof.
    induction l as [|o l IH]; intros w w' V v O H K Hv Hb Ho J; cbn [ask_all] in H.
    - injection H as <-. do 3 (split; [auto|]). cbn [map]. rewrite app_nil_r.
      assert (mk_view b (v_worker v) (v_owed v) = v) as -> by (destruct v; cbn in *; now subst).
      assert (set_nth i v V = V) as ->; [|exact J]. clear - Hv. revert i Hv. induction V as [|x V IH]; intros [|i] H; cbn in *; try discriminate; auto.
      + injection H as ->. reflexivity.
      + now rewrite IH.
    - destruct (ask_for p now i n b o w) as [w1|] eqn:E; [|discriminate]. pose proof (Forall_inv Ho) as Ho1; pose proof (Forall_inv_tail Ho) as Ho2.
      destruct (ask_for_link _ _ _ _ _ _ _ _ _ _ E K Hv Hb Ho1 J) as [K1 [P1 [S1 J1]]].
      destruct (IH w1 w' _ (mk_view b (v_worker v) (v_owed v ++ [(n, o)])) O H K1 (nth_set_same _ _ _ _ Hv) eq_refl Ho2 J1) as [K2 [P2 [S2 J2]]].
      split; [exact K2|]. split; [congruence|]. split; [congruence|]. cbn [v_worker v_owed] in J2.
      replace (set_nth i (mk_view b (v_worker v) (v_owed v ++ map (fun o => (n, o)) (o :: l))) V)
        with (set_nth i (mk_view b (v_worker v) ((v_owed v ++ [(n, o)]) ++ map (fun o => (n, o)) l)) (set_nth i (mk_view b (v_worker v) (v_owed v ++ [(n, o)])) V));
        [exact J2|].
      rewrite <- app_assoc. cbn [map app].
      assert (Hss : forall (A : Type) (x y : A) i l, set_nth i x (set_nth i y l) = set_nth i x l).
      { clear. intros A x y i l. revert i. induction l as [|z l IH]; intros [|i]; cbn; auto. now rewrite IH. }
      apply Hss.
  Qed.

  (** New tasks. *)
  Definition fresh (t : tsk) : Prop :=
    match ta_body t with BWorker _ w => w = worker_start | BCron _ _ _ _ k | BPruner _ _ k => tk_fired k = [] end.

  Lemma connect_all_link now : forall l w w' V O, connect_all p now l w = Some w' -> core w ->
    Forall fresh l -> linked p V (wd_streams w) (wd_asks w) (LL w) O ->
    core w' /\ wd_process w' = wd_process w /\ wd_asks w' = wd_asks w
    /\ linked p (V ++ map tv l) (wd_streams w') (wd_asks w') (LL w') O.
  Proof.
    induction l as [|t l IH]; intros w w' V O H K Hf J; cbn [connect_all map] in H |- *.
    - injection H as <-. rewrite app_nil_r. auto.
    - destruct (connect p now t w) as [w1|] eqn:E; [|discriminate]. pose proof (Forall_inv Hf) as F1; pose proof (Forall_inv_tail Hf) as F2.
      assert (Hc : core w1 /\ wd_process w1 = wd_process w /\ wd_asks w1 = wd_asks w
                   /\ linked p (V ++ [tv t]) (wd_streams w1) (wd_asks w1) (LL w1) O).
      { destruct t as [tb tk [x wk|x sc z data k|sc cfg k]]; unfold connect in E; unfold fresh in F1; cbn [ta_body ta_backend] in *.
        - destruct (nth_error (wd_stores w) tb) as [s|] eqn:Es; [|discriminate].
          destruct (ons now tb (LSubscribe (ex_name (xe_consts x))) w) as [w2|] eqn:E2; [|discriminate]. injection E as <-.
          destruct (ons_core _ _ _ _ _ E2 K) as [K' [P1 [P2 [P3 [HL [s' [Es' [Er _]]]]]]]].
          assert (s' = s) as -> by congruence. cbn [wd_process wd_asks wd_streams].
          split; [destruct K'; constructor; assumption|]. split; [exact P1|]. split; [exact P3|].
          destruct (store_run p (LL w tb)) as [_ [_ [N1 N2]]]. cbn zeta in N1, N2. rewrite <- Er in N1, N2.
          assert (length (c_streams s) = length (names_of (LL w tb))) as -> by (rewrite N2, <- N1; symmetry; apply map_length).
          rewrite P2, P3. subst wk. eapply link_upd; [exact HL|]. apply linked_spawn_worker. exact J.
        - injection E as <-. cbn [wd_process wd_asks wd_streams].
          split; [destruct K; constructor; assumption|]. do 2 (split; [reflexivity|]). unfold tv. cbn [ta_body ta_backend owed]. rewrite F1.
          apply linked_spawn_loop. exact J.
        - injection E as <-. cbn [wd_process wd_asks wd_streams].
          split; [destruct K; constructor; assumption|]. do 2 (split; [reflexivity|]). unfold tv. cbn [ta_body ta_backend owed]. rewrite F1.
          apply linked_spawn_loop. exact J. }
      destruct Hc as [K1 [P1 [A1 J1]]]. destruct (IH w1 w' _ O H K1 F2 J1) as [K2 [P2 [A2 J2]]].
      split; [exact K2|]. split; [congruence|]. split; [congruence|]. rewrite <- app_assoc in J2. exact J2.
  Qed.

  (** * The invariant *)
  Definition inv_link (w : world) (O : nat -> list mop) : Prop :=
    linked p (map tv (pr_tasks (wd_process w))) (wd_streams w) (wd_asks w) (LL w) O.

  Lemma map_set_nth_eq {A B} (f : A -> B) i x l : map f (set_nth i x l) = set_nth i (f x) (map f l).
  Proof. revert i. induction l as [|y l IH]; intros [|i]; cbn; auto. now rewrite IH. Qed.
  Lemma set_nth_id {A} i (x : A) l : nth_error l i = Some x -> set_nth i x l = l.
  Proof. revert i. induction l as [|y l IH]; intros [|i] H; cbn in *; try discriminate; [congruence|]. now rewrite IH. Qed.
  Lemma nth_map_tv i (l : list tsk) t : nth_error l i = Some t -> nth_error (map tv l) i = Some (tv t).
  Proof. intro H. apply map_nth_error. exact H. Qed.

  (** A step of a worker, and of a loop. *)
  Lemma onp_worker now i e w w' : onp now (AWorker i e) w = Some w' -> core w ->
    core w' /\ wd_stores w' = wd_stores w /\ wd_streams w' = wd_streams w /\ wd_asks w' = wd_asks w
    /\ (forall b, LL w' b = LL w b)
    /\ exists t t', nth_error (pr_tasks (wd_process w)) i = Some t /\ nth_error (pr_tasks (wd_process w')) i = Some t'
       /\ map tv (pr_tasks (wd_process w')) = set_nth i (tv t') (map tv (pr_tasks (wd_process w)))
       /\ worker_task_step show t e = Some t'.
  Proof.
    intros H K. destruct (onp_core _ _ _ _ H K ltac:(discriminate)) as [K' [P1 [P2 [P3 [HL _]]]]].
    do 5 (split; [assumption|]). unfold on_process in H. cbn [app_step] in H.
    destruct (nth_error (pr_tasks (wd_process w)) i) as [t|] eqn:Et; [|discriminate].
    destruct (worker_task_step show t e) as [t'|] eqn:Es; [|discriminate]. cbn [put_task] in H. injection H as <-.
    exists t, t'. cbn [wd_process pr_tasks]. split; [first [exact Et|reflexivity]|]. split; [eapply nth_set_same; eassumption|].
    split; [apply map_set_nth_eq|]. exact Es.
  Qed.
  Lemma onp_tick now i e w w' : onp now (ATick i e) w = Some w' -> core w ->
    core w' /\ wd_stores w' = wd_stores w /\ wd_streams w' = wd_streams w /\ wd_asks w' = wd_asks w
    /\ (forall b, LL w' b = LL w b)
    /\ exists t t', nth_error (pr_tasks (wd_process w)) i = Some t /\ nth_error (pr_tasks (wd_process w')) i = Some t'
       /\ map tv (pr_tasks (wd_process w')) = set_nth i (tv t') (map tv (pr_tasks (wd_process w)))
       /\ tick_task_step utc upcoming (token_cancelled t (wd_process w)) t e = Some t'.
  Proof.
    intros H K. destruct (onp_core _ _ _ _ H K ltac:(discriminate)) as [K' [P1 [P2 [P3 [HL _]]]]].
    do 5 (split; [assumption|]). unfold on_process in H. cbn [app_step] in H.
    destruct (nth_error (pr_tasks (wd_process w)) i) as [t|] eqn:Et; [|discriminate].
    destruct (tick_task_step utc upcoming (token_cancelled t (wd_process w)) t e) as [t'|] eqn:Es; [|discriminate]. cbn [put_task] in H. injection H as <-.
    exists t, t'. cbn [wd_process pr_tasks]. split; [first [exact Et|reflexivity]|]. split; [eapply nth_set_same; eassumption|].
    split; [apply map_set_nth_eq|]. exact Es.
  Qed.

  (** A worker's step that neither takes a job nor ends one. *)
  Lemma onp_worker_link now i e w w' O : onp now (AWorker i e) w = Some w' -> core w ->
    (forall m, e <> WFetch m) -> e <> WYield -> (forall j, e <> WTake (MJob j)) -> (forall n n1 n2 o, e <> WEnd n n1 n2 o) ->
    inv_link w O -> core w' /\ inv_link w' O.
  Proof.
    intros H K H1 H2 H3 H4 J. destruct (onp_worker _ _ _ _ _ H K) as [K' [P1 [P2 [P3 [HL [t [t' [Et [Et' [Em Es]]]]]]]]]].
    split; [exact K'|]. unfold inv_link. rewrite P2, P3, Em, (worker_view_same _ _ _ Es H1 H2 H3 H4).
    rewrite (set_nth_id _ _ _ (nth_map_tv _ _ _ Et)). eapply link_ext; [exact HL| |exact J]. auto.
  Qed.
  Lemma onp_tick_link now i e w w' O : onp now (ATick i e) w = Some w' -> core w -> (forall c, e <> Wake c) ->
    inv_link w O -> core w' /\ inv_link w' O.
  Proof.
    intros H K H1 J. destruct (onp_tick _ _ _ _ _ H K) as [K' [P1 [P2 [P3 [HL [t [t' [Et [Et' [Em Es]]]]]]]]]].
    split; [exact K'|]. unfold inv_link. rewrite P2, P3, Em.
    destruct (tick_view _ _ _ _ Es) as [_ [_ [_ [_ [-> _]]]]]; [|exact H1].
    rewrite (set_nth_id _ _ _ (nth_map_tv _ _ _ Et)). eapply link_ext; [exact HL| |exact J]. auto.
  Qed.

  (** * One event *)
  Lemma step_link now w ev w' O : vstep now w ev = Some w' -> core w -> inv_link w O ->
    core w' /\ inv_link w' (fun b => O b ++ outside b [(now, ev)]).
  Proof.
    intros H K J.
    assert (HO : (forall b, outside b [(now, ev)] = []) -> forall w', core w' /\ inv_link w' O -> core w' /\ inv_link w' (fun b => O b ++ outside b [(now, ev)])).
    { intros Hn w1 [K1 J1]. split; [exact K1|]. eapply linked_same; [..|exact J1]; auto. intro b. rewrite Hn. apply app_nil_r. }
    destruct ev as [|ev|b o|b i|i|i|i|i n|i n n1 n2 o|i n|i|i c0 c1|i c|i|i c|i c]; cbn [world_step] in H.
    - apply (HO (fun _ => eq_refl)). injection H as <-. split; [|exact J]. destruct K as [K1 K2 K3 K4 K5]. constructor; cbn [wd_process wd_stores wd_log]; rewrite ?app_length; cbn [length].
      + exact K1.
      + intros b s Hs. destruct (Nat.lt_ge_cases b (length (wd_stores w))) as [Hl|Hl].
        * rewrite nth_error_app1 in Hs by exact Hl. auto.
        * rewrite nth_error_app2 in Hs by exact Hl. destruct (b - length (wd_stores w))%nat as [|d]; [|destruct d; discriminate].
          injection Hs as <-. rewrite K3 by exact Hl. reflexivity.
      + intros b Hb. apply K3. lia.
      + intros r Hr. specialize (K4 r Hr). lia.
      + intros t Ht. specialize (K5 t Ht). lia.
    - apply (HO (fun _ => eq_refl)). unfold world_app in H.
      assert (G : forall ev, match ev with AWorker _ _ | ATick _ _ => False | ANew b => (b < length (wd_stores w))%nat | _ => True end ->
        match onp now ev w with
        | Some w' => connect_all p now (skipn (length (pr_tasks (wd_process w))) (pr_tasks (wd_process w'))) w'
        | None => None end = Some w' -> core w' /\ inv_link w' O).
      { clear HO H ev. intros ev Hev H. destruct (onp now ev w) as [w1|] eqn:E; [|discriminate].
        destruct (onp_core _ _ _ _ E K) as [K1 [P1 [P2 [P3 [HL Sh]]]]].
        { intros b ->. exact Hev. }
        assert (Hs : exists new, map tv (pr_tasks (wd_process w1)) = map tv (pr_tasks (wd_process w)) ++ map tv new
            /\ skipn (length (pr_tasks (wd_process w))) (pr_tasks (wd_process w1)) = new /\ Forall fresh new).
        { destruct Sh.
          - exists []. rewrite H1, app_nil_r, skipn_all. auto.
          - exists new. rewrite H4, map_app, skipn_app, skipn_all, Nat.sub_diag. do 2 (split; [reflexivity|]).
            rewrite Forall_forall. intros t Ht. destruct (H5 t Ht) as [_ [_ [_ Hb]]]. unfold fresh.
            destruct (ta_body t); [exact Hb| |]; rewrite Hb; reflexivity.
          - exists []. rewrite H4. cbn [map]. rewrite app_nil_r, map_map. split; [apply map_ext; intro; apply told_view|].
            split; [|constructor]. apply skipn_all2. rewrite map_length. lia.
          - exists []. rewrite H3, app_nil_r, skipn_all. auto.
          - exfalso. destruct H4 as [[e0 [-> _]]|[e0 [-> _]]]; exact Hev. }
        destruct Hs as [new [Em [En Hf]]]. rewrite En in H.
        assert (J1 : linked p (map tv (pr_tasks (wd_process w))) (wd_streams w1) (wd_asks w1) (LL w1) O).
        { rewrite P2, P3. eapply link_ext; [exact HL| |exact J]. auto. }
        destruct (connect_all_link now new w1 w' _ O H K1 Hf J1) as [K2 [Q1 [Q2 J2]]]. split; [exact K2|].
        unfold inv_link. rewrite Q1, Em. exact J2. }
      destruct ev as [b|h|h e|h e sc data|h e sc data z|h sc cfg|h|h|h|h|i e|i e]; try discriminate; try (eapply G; [|exact H]; exact Logic.I).
      destruct (Nat.ltb_spec b (length (wd_stores w))) as [Hb|]; [|discriminate]. apply (G (ANew b) Hb). rewrite H.
      unfold on_process in H. cbn [app_step app_new] in H. injection H as <-. cbn [wd_process pr_tasks]. rewrite skipn_all. reflexivity.
    - destruct (ons_core _ _ _ _ _ H K) as [K' [P1 [P2 [P3 [HL _]]]]]. split; [exact K'|]. unfold inv_link. rewrite P1, P2, P3.
      eapply link_upd; [exact HL|]. eapply linked_call; [|exact J]. intro b'. cbn. now rewrite app_nil_r.
    - apply (HO (fun _ => eq_refl)). destruct (ons_core _ _ _ _ _ H K) as [K' [P1 [P2 [P3 [HL [s [Es [Er _]]]]]]]]. split; [exact K'|]. unfold inv_link. rewrite P1, P2, P3.
      eapply ons_quiet; [exact H|exact K|reflexivity|reflexivity| |exact J]. intros s0 Es0 k j Hin. assert (s0 = s) as -> by congruence.
      destruct (store_run p (LL w b)) as [I1 [_ [_ I4]]]. cbn zeta in I1, I4. rewrite <- Er in I1, I4.
      destruct (proj2 (proj2 (proj2 (store_step p s (LRun i now) I1 I4))) k j Hin) as [_ [_ [[now' E] _]]]. discriminate.
    - apply (HO (fun _ => eq_refl)). unfold world_poll in H. destruct (nth_error (pr_tasks (wd_process w)) i) as [t|] eqn:Et; [|discriminate].
      destruct (nth_error (wd_streams w) i) as [[k|]|] eqn:Ek; try discriminate.
      destruct (ta_body t) as [x wk|x sc z data tk|sc cfg tk] eqn:Eb; try discriminate.
      destruct (polls x wk); [|discriminate]. destruct (ons now (ta_backend t) (LStream k now) w) as [w1|] eqn:E; [|discriminate].
      destruct (ons_core _ _ _ _ _ E K) as [K1 [P1 [P2 [P3 [HL [s [Es [Er Es']]]]]]]].
      destruct (store_run p (LL w (ta_backend t))) as [I1 [_ [_ I4]]]. cbn zeta in I1, I4. rewrite <- Er in I1, I4.
      unfold stream_at in H. rewrite Es' in H.
      destruct (nth_error (c_streams (fst (conc_step p s (LStream k now)))) k) as [ph|] eqn:Eph.
      + assert (Hq : (forall j, ph <> SYield (Ok j)) -> inv_link w1 O).
        { intro Hne. unfold inv_link. rewrite P1, P2, P3. eapply ons_quiet; [exact E|exact K|reflexivity|reflexivity| |exact J].
          intros s0 Es0 k0 j Hin. assert (s0 = s) as -> by congruence.
          destruct (proj2 (proj2 (proj2 (store_step p s (LStream k now) I1 I4))) k0 j Hin) as [F1 [_ [[now' F2] _]]].
          injection F2 as <- <-. apply (Hne j). congruence. }
        assert (Hw : forall e, (forall m, e <> WFetch m) -> e <> WYield -> (forall j, e <> WTake (MJob j)) -> (forall n n1 n2 o, e <> WEnd n n1 n2 o) ->
                  (forall j, ph <> SYield (Ok j)) -> onp now (AWorker i e) w1 = Some w' -> core w' /\ inv_link w' O).
        { intros e F1 F2 F3 F4 F5 F6. eapply onp_worker_link; eauto. }
        destruct ph as [| | | | |[j|err|]|]; try (injection H as <-; split; [exact K1|apply Hq; discriminate]);
          try (eapply Hw; [..|exact H]; discriminate).
        assert (Hev := yields_handed p s k now j I4 Eph).
        destruct (onp_worker _ _ _ _ _ H K1) as [K' [Q1 [Q2 [Q3 [HL' [t0 [t' [Et0 [Et' [Em Est]]]]]]]]]].
        assert (t0 = t) as -> by congruence. split; [exact K'|]. unfold inv_link. rewrite Em, Q2, Q3, P1, P2, P3.
        assert (Hv : tv t' = mk_view (v_backend (tv t)) (Some (ex_name (xe_consts x), jobs_taken wk ++ [j])) (v_owed (tv t))).
        { destruct (worker_view _ _ _ Est) as [x' [wk' [w2 [Eb' [Es2 ->]]]]]. rewrite Eb in Eb'. 
          assert (x' = x /\ (forall P : forall e : executor, worker -> Prop, P x' wk' -> P x wk)) as [Ex HP].
          { split; [now inversion Eb'|]. intros P HPx. inversion Eb'. subst. exact HPx. }
          subst x'. assert (wk' = wk) as -> by (inversion Eb'; reflexivity).
          destruct (wstep_taken _ _ _ _ _ _ Es2 ltac:(discriminate) ltac:(discriminate)) as [T1 [_ T3]].
          unfold tv. cbn [ta_body ta_backend v_backend v_owed owed]. rewrite Eb. cbn [owed]. rewrite T1, T3 by discriminate. reflexivity. }
        rewrite Hv. eapply linked_same; [| | | |intros; reflexivity|].
        5:{ eapply linked_take with (now := now); [apply nth_map_tv; exact Et|unfold tv; cbn; rewrite Eb; reflexivity|exact Ek| |exact J].
            cbn [tv v_backend]. rewrite <- Er. exact Hev. }
        all: intros; rewrite HL', HL; reflexivity.
      + injection H as <-. split; [exact K1|]. unfold inv_link. rewrite P1, P2, P3. eapply ons_quiet; [exact E|exact K|reflexivity|reflexivity| |exact J].
        intros s0 Es0 k0 j Hin. assert (s0 = s) as -> by congruence.
        destruct (proj2 (proj2 (proj2 (store_step p s (LStream k now) I1 I4))) k0 j Hin) as [F1 [_ [[now' F2] _]]]. injection F2 as <- <-. congruence.
    - apply (HO (fun _ => eq_refl)). unfold world_recv in H. destruct (nth_error (pr_tasks (wd_process w)) i) as [t|] eqn:Et; [|discriminate].
      destruct (nth_error (wd_streams w) i) as [[k|]|] eqn:Ek; try discriminate.
      destruct (ta_body t) as [x wk|x sc z data tk|sc cfg tk] eqn:Eb; try discriminate.
      destruct (polls x wk); [|discriminate].
      destruct (ons_core _ _ _ _ _ H K) as [K1 [P1 [P2 [P3 [HL [s [Es [Er Es']]]]]]]].
      split; [exact K1|]. unfold inv_link. rewrite P1, P2, P3. eapply ons_quiet; [exact H|exact K|reflexivity|reflexivity| |exact J].
      intros s0 Es0 k0 j Hin. assert (s0 = s) as -> by congruence.
      destruct (store_run p (LL w (ta_backend t))) as [I1 [_ [_ I4]]]. cbn zeta in I1, I4. rewrite <- Er in I1, I4.
      destruct (proj2 (proj2 (proj2 (store_step p s (LRecv k) I1 I4))) k0 j Hin) as [_ [_ [[now' F2] _]]]. discriminate.
    - apply (HO (fun _ => eq_refl)). eapply onp_worker_link; eauto; discriminate.
    - apply (HO (fun _ => eq_refl)). eapply onp_worker_link; eauto; discriminate.
    - apply (HO (fun _ => eq_refl)). unfold world_end in H. destruct (onp now (AWorker i (WEnd n n1 n2 o)) w) as [w1|] eqn:E; [|discriminate].
      destruct (onp_worker _ _ _ _ _ E K) as [K1 [P1 [P2 [P3 [HL [t [t' [Et [Et' [Em Est]]]]]]]]]].
      rewrite Et' in H. destruct (worker_view _ _ _ Est) as [x [wk [w2 [Eb [Es2 ->]]]]]. cbn [ta_body ta_backend] in H.
      destruct (wstep_taken _ _ _ _ _ _ Es2 ltac:(discriminate) ltac:(discriminate)) as [T1 [T2 _]]. rewrite app_nil_r in T1.
      destruct (T2 n n1 n2 o eq_refl) as [[op [R1 [R2 R3]]]|[R1 R2]].
      + rewrite R2 in H.
        assert (J1 : linked p (map tv (pr_tasks (wd_process w))) (wd_streams w1) (wd_asks w1) (LL w1) O).
        { rewrite P2, P3. eapply link_ext; [exact HL| |exact J]. auto. }
        destruct (ask_for_link _ _ _ _ _ _ _ _ _ O H K1 (nth_map_tv _ _ _ Et) eq_refl R3 J1) as [K2 [Q1 [Q2 J2]]].
        split; [exact K2|]. unfold inv_link. rewrite Q1, Em. unfold tv at 1. cbn [ta_body ta_backend owed]. rewrite R1, T1.
        unfold tv in J2 at 1 2. cbn [v_worker v_owed] in J2. rewrite Eb in J2. cbn [owed] in J2. exact J2.
      + rewrite R2 in H. cbn in H. injection H as <-. split; [exact K1|]. unfold inv_link. rewrite P2, P3, Em.
        unfold tv at 1. cbn [ta_body ta_backend owed]. rewrite R1, T1.
        assert (mk_view (ta_backend t) (Some (ex_name (xe_consts x), jobs_taken wk)) (reports wk) = tv t) as -> by (unfold tv; rewrite Eb; reflexivity).
        rewrite (set_nth_id _ _ _ (nth_map_tv _ _ _ Et)). eapply link_ext; [exact HL| |exact J]. auto.
    - apply (HO (fun _ => eq_refl)). unfold world_answer in H.
      destruct (replies i n w) as [|[[| | | | |[ | r| |]]|] [|]]; try discriminate. all: try (eapply onp_worker_link; eauto; discriminate).
    - apply (HO (fun _ => eq_refl)). eapply onp_worker_link; eauto; discriminate.
    - apply (HO (fun _ => eq_refl)). eapply onp_tick_link; eauto; discriminate.
    - apply (HO (fun _ => eq_refl)). unfold world_wake in H. destruct (onp now (ATick i (Wake c)) w) as [w1|] eqn:E; [|discriminate].
      destruct (onp_tick _ _ _ _ _ E K) as [K1 [P1 [P2 [P3 [HL [t [t' [Et [Et' [Em Est]]]]]]]]]].
      rewrite Et' in H. destruct (tick_view _ _ _ _ Est) as [T1 [_ [T2 [T3 [_ T4]]]]].
      destruct (T4 c eq_refl) as [next [F1 [F2 F3]]]. rewrite F1 in H. rewrite <- F1 in H.
      assert (J1 : linked p (map tv (pr_tasks (wd_process w))) (wd_streams w1) (wd_asks w1) (LL w1) O).
      { rewrite P2, P3. eapply link_ext; [exact HL| |exact J]. auto. }
      rewrite T1 in H.
      destruct (ask_all_link _ _ _ _ _ _ _ _ _ O H K1 (nth_map_tv _ _ _ Et) eq_refl F3 J1) as [K2 [Q1 [Q2 J2]]].
      split; [exact K2|]. unfold inv_link. rewrite Q1, Em.
      assert (tv t' = mk_view (v_backend (tv t)) (v_worker (tv t)) (v_owed (tv t) ++ map (fun o => (length (firings (ta_body t')), o)) (deeds hash (ta_body t') c next))) as ->.
      { rewrite T2. unfold tv. cbn [v_backend v_owed]. rewrite T1, F2. f_equal. exact T3. }
      exact J2.
    - apply (HO (fun _ => eq_refl)). eapply onp_tick_link; eauto; discriminate.
    - apply (HO (fun _ => eq_refl)). unfold world_acted in H. destruct (nth_error (pr_tasks (wd_process w)) i) as [t|]; [|discriminate].
      destruct (existsb is_panic _); [eapply onp_tick_link; eauto; discriminate|].
      destruct (forallb is_done _); [|discriminate]. eapply onp_tick_link; eauto; discriminate.
    - apply (HO (fun _ => eq_refl)). eapply onp_tick_link; eauto; discriminate.
  Qed.

  Lemma init_link : core (world_init (Schedule := Schedule) (Zone := Zone)) /\ inv_link world_init (fun _ => []).
  Proof.
    split; [|apply linked_init]. constructor; cbn.
    - exists []. reflexivity.
    - intros b s H. destruct b; discriminate.
    - reflexivity.
    - intros r [].
    - intros t [].
  Qed.

  Lemma run_link : forall es w w' O, vrun w es = Some w' -> core w -> inv_link w O ->
    core w' /\ inv_link w' (fun b => O b ++ outside b es).
  Proof.
    induction es as [|[now ev] es IH]; intros w w' O H K J; cbn [world_run] in H.
    - injection H as <-. split; [exact K|]. eapply linked_same; [..|exact J]; auto. intro b. apply app_nil_r.
    - destruct (vstep now w ev) as [w1|] eqn:E; [|discriminate]. destruct (step_link _ _ _ _ _ E K J) as [K1 J1].
      destruct (IH _ _ _ H K1 J1) as [K2 J2]. split; [exact K2|].
      eapply linked_same; [..|exact J2]; auto. intro b. cbn beta. rewrite <- app_assoc. f_equal.
      unfold outside. cbn [flat_map]. now rewrite app_nil_r.
  Qed.

  Theorem reach_link es w : vrun world_init es = Some w -> core w /\ inv_link w (fun b => outside b es).
  Proof.
    intro H. destruct init_link as [K J]. exact (run_link es _ _ _ H K J).
  Qed.
End Inv.
