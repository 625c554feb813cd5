(** Theorems about processes that share a Postgres database, from the invariant. *)
From Coq Require Import Lia Permutation.
From Verif Require Import Base Chrono Types Query Memory MemSpec MemConc MemWake PgRow PgQuery Pg PgSpec PgProofs PgConc PgConcSpec PgConcProofs PgConcHist PgConcPast PgConcEnd
  PgListen PgListenSpec PgListenProofs Codec Builder
  Runner RunnerSpec WorkerProofs Ticker Pruner ApiProofs App AppSpec AppProofs World WorldSpec WorldProofs WorldInv WorldThms
  Fleet FleetSpec FleetLink FleetInv.

Section Right.
Variable ident : option Z -> option string -> list status -> Z.

(** A load takes a row of its executor. *)
Lemma load_executor_pg t qs : sound_table t -> forall i ex b a, In (QvWrite i (OpLoad ex) b a) (qtrace ident (opened t) qs) -> r_executor a = ex.
Proof.
  intro Ht. induction qs as [|l qs IH] using rev_ind; intros i ex b a H; [destruct H|].
  rewrite qtrace_snoc in H. apply in_app_or in H. destruct H as [H|H]; [exact (IH _ _ _ _ H)|].
  assert (Hl : exists now pick, l = QRun i now pick).
  { destruct l as [o|i' now pick|i' e].
    - destruct H.
    - destruct (step_event ident _ _ _ (PgConcProofs.run_inv ident qs _ (inv_opened _ Ht)) H) as [i1 [now1 [pick1 [c [t' [pc' [El [Hc [He _]]]]]]]]].
      injection El as <- <- <-. inversion He; subst; eauto.
    - cbn in H. destruct (nth_error _ _); destruct H. }
  destruct Hl as [now [pick ->]].
  destruct (take_right ident t qs i now pick ex b a Ht H) as [began [_ [_ [Hr [Ht' _]]]]].
  apply pg_ready_waits in Hr. destruct Hr as [_ Hr]. unfold pg_take in Ht'. destruct (int4 _); [|discriminate]. injection Ht' as <-. exact Hr.
Qed.

Lemma names_grow t ls l k x : nth_error (names (nrun ident (n_found t) ls)) k = Some x -> nth_error (names (nrun ident (n_found t) (ls ++ [l]))) k = Some x.
Proof.
  intro H. rewrite nrun_snoc. set (s := nrun ident (n_found t) ls) in *.
  assert (Hd : (exists c ex, l = NSubscribe c ex) \/ (exists k' now, l = NStream k' now) \/ (exists o, l = NDb (QCall o))
    \/ ((forall o, l <> NDb (QCall o)) /\ (forall c ex, l <> NSubscribe c ex) /\ (forall k now, l <> NStream k now))).
  { destruct l as [[]| | | | | | | |]; eauto 6; right; right; right; repeat split; discriminate. }
  destruct Hd as [[c [ex ->]]|[[k' [now ->]]|[[o ->]|[N1 [N2 N3]]]]].
  - unfold names in *. cbn [nstep]. destruct (nth_error (n_clients s) c); [|exact H]. cbn. rewrite map_app. apply nth_app_old. exact H.
  - destruct (nth_error (n_streams s) k') as [st|] eqn:E.
    + destruct (net_stream ident s k' now st E) as [st' [more [_ [_ [_ [E4 _]]]]]]. rewrite E4. exact H.
    + cbn [nstep]. rewrite E. exact H.
  - destruct (net_call ident s o) as [_ [E2 _]]. rewrite E2. exact H.
  - destruct (net_quiet ident s l N1 N2 N3) as [_ [E2 _]]. rewrite E2. exact H.
Qed.

(** A stream gives jobs of its executor. *)
Lemma yield_executor t ls : sound_table t -> forall k i j, In (NvYield k i j) (ntrace ident (n_found t) ls) ->
  exists c, nth_error (names (nrun ident (n_found t) ls)) k = Some (c, j_executor j).
Proof.
  intro Ht. induction ls as [|l ls IH] using rev_ind; intros k i j H; [destruct H|].
  rewrite ntrace_snoc in H. apply in_app_or in H. destruct H as [H|H].
  - destruct (IH k i j H) as [c Hc]. exists c. apply names_grow. exact Hc.
  - destruct (given_step ident (nrun ident (n_found t) ls) l) as [Hg|[k0 [now [st0 [t0 [read0 [d0 [i0 [o0 [j0 [El [Hk0 [Hp0 [Hev [Hc0 _]]]]]]]]]]]]]]].
    + exfalso. assert (Hi : In i (PgListenProofs.given (snd (nstep ident (nrun ident (n_found t) ls) l)))).
      { apply in_flat_map. exists (NvYield k i j). split; [exact H|left; reflexivity]. }
      rewrite Hg in Hi. destruct Hi.
    + rewrite Hev in H. destruct H as [H|[]]. injection H as <- <- <-. exists (s_client st0). apply names_grow. unfold names.
      rewrite (map_nth_error _ _ _ Hk0). do 2 f_equal.
      destruct (yi_load _ _ (yinv_run ident t ls) _ _ _ _ _ _ Hk0 Hp0) as [_ [pc Hc]]. rewrite Hc0 in Hc. injection Hc as -> _.
      destruct (projection ident (n_found t) ls) as [qs [E1 E2]]. rewrite E1 in Hc0. change (n_db (n_found t)) with (opened t) in *.
      destruct (load_taken ident t qs _ _ _ Hc0) as [b [a [H1 [_ Hj]]]].
      rewrite <- (load_executor_pg t qs Ht _ _ _ _ H1). apply represents_iff in Hj. unfold represents in Hj.
      apply Hj.
Qed.
End Right.




Lemma map_flat_map' {A B C} (g : B -> C) (f : A -> list B) l : map g (flat_map f l) = flat_map (fun x => map g (f x)) l.
Proof. induction l as [|x l IH]; cbn; [reflexivity|]. now rewrite map_app, IH. Qed.

Section Thms.
  Context {Schedule Zone : Type}.
  Variable utc : Zone.
  Variable upcoming : Schedule -> Zone -> time -> option time.
  Variable show : Z -> string.
  Variable hash : forall e : executor, xe_data e -> Z.
  Variable ident : option Z -> option string -> list status -> Z.
  Variable t0 : tbl.
  Notation fleet := (fleet Schedule Zone).
  Notation run := (app_run utc upcoming show).
  Notation tsk := (task Schedule Zone).
  Notation onn := (on_node utc upcoming show).
  Notation net := (on_net (Schedule := Schedule) (Zone := Zone) ident).
  Notation fstep := (fleet_step utc upcoming show hash ident).
  Notation frun := (fleet_run utc upcoming show hash ident).
  Notation wstep e := (worker_step (xe_codec e) (xe_fns e) show (ex_max_concurrency (xe_consts e))).
  Notation tr w := (ntrace ident (n_found t0) (net_labels (fl_log w))).
  Notation reach := (reach_good utc upcoming show hash ident t0).

  Lemma frun_app es1 : forall es2 w, frun w (es1 ++ es2) = match frun w es1 with Some w1 => frun w1 es2 | None => None end.
  Proof.
    induction es1 as [|[now ev] es1 IH]; intros es2 w; cbn [app fleet_run]; [reflexivity|].
    destruct (fstep now w ev); [apply IH|reflexivity].
  Qed.

  (** * The log *)
  Lemma onn_log now q ev (w w' : fleet) : onn now q ev w = Some w' ->
    fl_log w' = fl_log w ++ [(now, OnNode q ev)] /\ fl_homes w' = fl_homes w /\ length (fl_nodes w') = length (fl_nodes w) /\ fl_net w' = fl_net w
    /\ (forall q', q' <> q -> nth_error (fl_nodes w') q' = nth_error (fl_nodes w) q').
  Proof.
    unfold on_node. destruct (nth_error _ _) as [s|]; [|discriminate]. destruct (app_step _ _ _ _ _ _) as [[s' r]|]; [|discriminate].
    intro H. injection H as <-. cbn. rewrite set_nth_length. repeat split; auto. intros q' Hq. apply nth_set_nth_other. congruence.
  Qed.
  Lemma worker_log now g e (w w' : fleet) : on_worker utc upcoming show now g e w = Some w' ->
    exists q i, nth_error (fl_places w) g = Some (q, i) /\ fl_log w' = fl_log w ++ [(now, OnNode q (AWorker i e))].
  Proof.
    unfold on_worker. destruct (nth_error _ _) as [[q i]|]; [|discriminate]. intro H. exists q, i. split; [reflexivity|]. apply (onn_log _ _ _ _ _ H).
  Qed.
  Lemma tick_log now g e (w w' : fleet) : on_tick utc upcoming show now g e w = Some w' ->
    exists q i, nth_error (fl_places w) g = Some (q, i) /\ fl_log w' = fl_log w ++ [(now, OnNode q (ATick i e))].
  Proof.
    unfold on_tick. destruct (nth_error _ _) as [[q i]|]; [|discriminate]. intro H. exists q, i. split; [reflexivity|]. apply (onn_log _ _ _ _ _ H).
  Qed.
  Lemma asks_log now g n : forall l (w : fleet), let w' := fold_left (fun w o => fleet_ask ident now g n o w) l w in
    fl_log w' = fl_log w ++ map (fun o => (now, OnNet (NDb (QCall o)))) l /\ fl_nodes w' = fl_nodes w /\ fl_homes w' = fl_homes w.
  Proof.
    induction l as [|o l IH]; intro w; cbn [fold_left map]; cbn zeta; [now rewrite app_nil_r|].
    destruct (IH (fleet_ask ident now g n o w)) as [E1 [E2 E3]]. cbn zeta in *. rewrite E1, E2, E3. cbn. rewrite <- app_assoc. auto.
  Qed.
  Lemma enlist_log now q : forall l i (w : fleet), let w' := enlist_all ident now q i l w in
    fl_log w' = fl_log w ++ flat_map (fun t => match ta_body t with
        | BWorker e _ => [(now, OnNet (NSubscribe (ta_backend t) (ex_name (xe_consts e))))] | _ => [] end) l
    /\ fl_nodes w' = fl_nodes w /\ fl_homes w' = fl_homes w.
  Proof.
    induction l as [|t l IH]; intros i w; cbn [enlist_all flat_map]; cbn zeta; [now rewrite app_nil_r|].
    destruct (IH (S i) (enlist ident now q i t w)) as [E1 [E2 E3]]. cbn zeta in *. rewrite E1, E2, E3. unfold enlist.
    destruct (ta_body t); cbn; rewrite <- ?app_assoc; auto.
  Qed.

  (** * What each event does *)
  Theorem events_thm now (w : fleet) ev w' : fstep now w ev = Some w' ->
    exists added, fl_log w' = fl_log w ++ added /\
    match ev with
    | FNode => added = [] /\ fl_nodes w' = fl_nodes w ++ [process_init]
    | FOpen q => (q < length (fl_nodes w))%nat /\ added = [(now, OnNet NOpen)]
    | FApp q a =>
        match a with AWorker _ _ | ATick _ _ => False | ANew c => nth_error (fl_homes w) c = Some q | _ => True end
        /\ added = (now, OnNode q a) :: flat_map (fun t => match ta_body t with
             | BWorker e _ => [(now, OnNet (NSubscribe (ta_backend t) (ex_name (xe_consts e))))] | _ => [] end)
             (skipn (length (tasks_of q w)) (tasks_of q w'))
    | FCall o => match o with OpLoad _ | OpSubscribe _ => False | _ => True end /\ added = [(now, OnNet (NDb (QCall o)))]
    | FRun i pick => added = [(now, OnNet (NDb (QRun i now pick)))]
    | FAbort i e => added = [(now, OnNet (NDb (QAbort i e)))]
    | FDeliver c => added = [(now, OnNet (NDeliver c))]
    | FLost c => added = [(now, OnNet (NLost c))]
    | FClosed c => added = [(now, OnNet (NClosed c))]
    | FPoll g => exists q i k, nth_error (fl_places w) g = Some (q, i) /\ nth_error (fl_streams w) g = Some (Some k)
        /\ added = (now, OnNet (NStream k now))
             :: match option_map s_phase (nth_error (n_streams (fst (nstep ident (fl_net w) (NStream k now)))) k) with
                | Some (PYield (Ok j)) => [(now, OnNode q (AWorker i (WTake (MJob j))))]
                | Some (PYield (Err err)) => [(now, OnNode q (AWorker i (WTake (MError err))))]
                | _ => []
                end
    | FRecv g => exists k, nth_error (fl_streams w) g = Some (Some k) /\ added = [(now, OnNet (NRecv k))]
    | FError g => exists q i k, nth_error (fl_places w) g = Some (q, i) /\ nth_error (fl_streams w) g = Some (Some k)
        /\ option_map s_phase (nth_error (n_streams (fl_net w)) k) = Some PCheck
        /\ added = [(now, OnNet (NError k)); (now, OnNode q (AWorker i (WTake (MError BadState))))]
    | FClose g => exists q i, nth_error (fl_places w) g = Some (q, i) /\ added = [(now, OnNode q (AWorker i WClose))]
    | FStart g n => exists q i, nth_error (fl_places w) g = Some (q, i) /\ added = [(now, OnNode q (AWorker i (WStart n)))]
    | FEnd g n n1 n2 o => exists q i, nth_error (fl_places w) g = Some (q, i)
        /\ exists os, added = (now, OnNode q (AWorker i (WEnd n n1 n2 o))) :: map (fun op => (now, OnNet (NDb (QCall op)))) os /\ (length os <= 1)%nat
    | FAnswer g n => exists q i r, nth_error (fl_places w) g = Some (q, i) /\ added = [(now, OnNode q (AWorker i (WReported n r)))]
    | FFinish g => exists q i, nth_error (fl_places w) g = Some (q, i) /\ added = [(now, OnNode q (AWorker i WFinish))]
    | FCompute g c0 c1 => exists q i, nth_error (fl_places w) g = Some (q, i) /\ added = [(now, OnNode q (ATick i (Compute c0 c1)))]
    | FWake g c => exists q i, nth_error (fl_places w) g = Some (q, i)
        /\ exists os, added = (now, OnNode q (ATick i (Wake c))) :: map (fun o => (now, OnNet (NDb (QCall o)))) os
    | FLeave g => exists q i, nth_error (fl_places w) g = Some (q, i) /\ added = [(now, OnNode q (ATick i Cancel))]
    | FActed g c => exists q i panicked, nth_error (fl_places w) g = Some (q, i) /\ added = [(now, OnNode q (ATick i (Acted c panicked)))]
    | FRested g c => exists q i, nth_error (fl_places w) g = Some (q, i) /\ added = [(now, OnNode q (ATick i (Rested c)))]
    end.
  Proof.
    intro H.
    destruct ev as [|q|q ev|o|i pick|i e|c|c|c|g|g|g|g|g n|g n n1 n2 o|g n|g|g c0 c1|g c|g|g c|g c]; cbn [fleet_step] in H;
      try (destruct (worker_log _ _ _ _ _ H) as [q [i [Hp Hl]]]; eexists; split; [exact Hl|]; eauto; fail);
      try (destruct (tick_log _ _ _ _ _ H) as [q [i [Hp Hl]]]; eexists; split; [exact Hl|]; eauto; fail);
      try (injection H as <-; eexists; split; [reflexivity|]; reflexivity).
    - injection H as <-. exists []. cbn. rewrite app_nil_r. auto.
    - destruct (Nat.ltb_spec q (length (fl_nodes w))); [|discriminate]. injection H as <-. eexists. split; [reflexivity|]. auto.
    - unfold fleet_app in H.
      assert (G : forall ev, match onn now q ev w with
        | Some w' => let n := length (tasks_of q w) in Some (enlist_all ident now q n (skipn n (tasks_of q w')) w')
        | None => None end = Some w' ->
        exists added, fl_log w' = fl_log w ++ added /\ added = (now, OnNode q ev) :: flat_map (fun t => match ta_body t with
             | BWorker e _ => [(now, OnNet (NSubscribe (ta_backend t) (ex_name (xe_consts e))))] | _ => [] end)
             (skipn (length (tasks_of q w)) (tasks_of q w'))).
      { intros e K. destruct (onn now q e w) as [w1|] eqn:E; [|discriminate]. cbn zeta in K. injection K as <-.
        destruct (enlist_log now q (skipn (length (tasks_of q w)) (tasks_of q w1)) (length (tasks_of q w)) w1) as [E1 [E2 E3]]. cbn zeta in *.
        eexists. split; [|reflexivity]. rewrite E1. destruct (onn_log _ _ _ _ _ E) as [-> _]. rewrite <- app_assoc. do 2 f_equal.
        unfold tasks_of at 2 4. rewrite E2. reflexivity. }
      destruct ev as [b|h|h e|h e sc data|h e sc data z|h sc cfg|h|h|h|h|i e|i e]; try discriminate;
        try (destruct (G _ H) as [ad [A1 A2]]; exists ad; auto; fail).
      destruct (nth_error (fl_homes w) b) as [z|] eqn:Ez; [|discriminate]. destruct (Nat.eqb z q) eqn:Ezq; [|discriminate]. apply Nat.eqb_eq in Ezq.
      exists [(now, OnNode q (ANew b))]. split; [apply (onn_log _ _ _ _ _ H)|]. split; [congruence|]. clear G. unfold on_node in H.
      destruct (nth_error (fl_nodes w) q) as [s|] eqn:Es; [|discriminate]. cbn [app_step app_new] in H. injection H as <-.
      unfold tasks_of. cbn [fl_nodes]. rewrite (nth_set_same _ _ _ _ Es), Es. cbn [pr_tasks]. rewrite skipn_all. reflexivity.
    - exists [(now, OnNet (NDb (QCall o)))]. destruct o; cbn in H; try discriminate; injection H as <-; auto.
    - unfold fleet_poll in H. destruct (polled g w) as [k|] eqn:Ep; [|discriminate]. unfold polled in Ep.
      destruct (task_of g w) as [t|] eqn:Et; [|discriminate]. destruct (nth_error (fl_streams w) g) as [[k0|]|] eqn:Ek; try discriminate.
      destruct (ta_body t); try discriminate. destruct (polls e w0); [|discriminate]. injection Ep as ->.
      rewrite task_of_seat in Et. destruct (nth_error (fl_places w) g) as [[q i]|] eqn:Eg; [|discriminate].
      unfold phase_of in H. cbn [on_net fl_net] in H.
      exists ((now, OnNet (NStream k now))
             :: match option_map s_phase (nth_error (n_streams (fst (nstep ident (fl_net w) (NStream k now)))) k) with
                | Some (PYield (Ok j)) => [(now, OnNode q (AWorker i (WTake (MJob j))))]
                | Some (PYield (Err err)) => [(now, OnNode q (AWorker i (WTake (MError err))))]
                | _ => []
                end). split; [|exists q, i, k; auto].
      assert (Q : forall e, on_worker utc upcoming show now g e (net now (NStream k now) w) = Some w' ->
        fl_log w' = fl_log w ++ [(now, OnNet (NStream k now)); (now, OnNode q (AWorker i e))]).
      { intros e0 K. destruct (worker_log _ _ _ _ _ K) as [q1 [i1 [K1 ->]]]. change (fl_places (net now (NStream k now) w)) with (fl_places w) in K1.
        rewrite Eg in K1. injection K1 as <- <-. cbn. rewrite <- app_assoc. reflexivity. }
      destruct (option_map s_phase (nth_error (n_streams (fst (nstep ident (fl_net w) (NStream k now)))) k)) as [[| | | | | |[j|err|]]|];
        try (injection H as <-; reflexivity); apply Q; exact H.
    - unfold fleet_recv in H. destruct (polled g w) as [k|] eqn:Ep; [|discriminate]. unfold polled in Ep.
      destruct (task_of g w) as [t|] eqn:Et; [|discriminate]. destruct (nth_error (fl_streams w) g) as [[k0|]|] eqn:Ek; try discriminate.
      destruct (ta_body t); try discriminate. destruct (polls e w0); [|discriminate]. injection Ep as ->. injection H as <-.
      eexists. split; [reflexivity|]. eauto.
    - unfold fleet_error in H. destruct (polled g w) as [k|] eqn:Ep; [|discriminate]. unfold polled in Ep.
      destruct (task_of g w) as [t|] eqn:Et; [|discriminate]. destruct (nth_error (fl_streams w) g) as [[k0|]|] eqn:Ek; try discriminate.
      destruct (ta_body t); try discriminate. destruct (polls e w0); [|discriminate]. injection Ep as ->.
      unfold phase_of in H. destruct (option_map s_phase (nth_error (n_streams (fl_net w)) k)) as [[]|] eqn:Eph; try discriminate.
      destruct (worker_log _ _ _ _ _ H) as [q [i [K1 K2]]]. eexists. split; [rewrite K2; cbn; rewrite <- app_assoc; reflexivity|].
      exists q, i, k. auto.
    - unfold fleet_end in H. destruct (on_worker utc upcoming show now g (WEnd n n1 n2 o) w) as [w1|] eqn:E; [|discriminate].
      destruct (worker_log _ _ _ _ _ E) as [q [i [Hp El]]]. destruct (task_of g w1) as [t|]; [|discriminate].
      assert (Hd : fl_log w' = fl_log w1 \/ exists op, w' = fleet_ask ident now g n op w1).
      { destruct (ta_body t); try (injection H as <-; auto). destruct (flight_of n (w_flights w0)) as [[m|x|op]|]; injection H as <-; eauto. }
      destruct Hd as [Hd|[op ->]].
      + rewrite Hd, El. eexists. split; [reflexivity|]. exists q, i. split; [exact Hp|]. exists []. cbn. auto.
      + cbn [fleet_ask on_net fl_log]. rewrite El, <- app_assoc. eexists. split; [reflexivity|]. exists q, i. split; [exact Hp|]. exists [op]. cbn. auto.
    - unfold fleet_answer in H. destruct (answers g n w) as [|[[| | | | | | | | | |[|r| |]]|] [|]]; try discriminate.
      destruct (worker_log _ _ _ _ _ H) as [q [i [Hp El]]]. eexists. split; [exact El|]. eauto.
    - unfold fleet_wake in H. destruct (on_tick utc upcoming show now g (Wake c) w) as [w1|] eqn:E; [|discriminate].
      destruct (tick_log _ _ _ _ _ E) as [q [i [Hp El]]]. destruct (task_of g w1) as [t|]; [|discriminate].
      destruct (firings (ta_body t)) as [|[c' next] rest].
      + injection H as <-. eexists. split; [exact El|]. exists q, i. split; [exact Hp|]. exists []. reflexivity.
      + injection H as <-. match goal with |- context [fold_left _ ?l w1] => destruct (asks_log now g (S (length rest)) l w1) as [E1 _] end. cbn zeta in E1.
        cbn [length]. rewrite E1, El, <- app_assoc. eexists. split; [reflexivity|]. exists q, i. split; [exact Hp|]. eexists. reflexivity.
    - unfold fleet_acted in H. destruct (task_of g w) as [t|]; [|discriminate].
      destruct (existsb _ _); [|destruct (forallb _ _); [|discriminate]]; destruct (tick_log _ _ _ _ _ H) as [q [i [Hp El]]]; eexists; (split; [exact El|]); eauto.
  Qed.

  Lemma node_events_app q (a b : list (time * deed Schedule Zone)) : node_events q (a ++ b) = node_events q a ++ node_events q b.
  Proof. apply flat_map_app. Qed.
  Lemma node_events_calls q now os : node_events (Schedule := Schedule) (Zone := Zone) q (map (fun o => (now, OnNet (NDb (QCall o)))) os) = [].
  Proof. unfold node_events. induction os; auto. Qed.
  Lemma node_events_subs q now (l : list tsk) : node_events (Schedule := Schedule) (Zone := Zone) q (flat_map (fun t => match ta_body t with
             | BWorker e _ => [(now, OnNet (NSubscribe (ta_backend t) (ex_name (xe_consts e))))] | _ => [] end) l) = [].
  Proof.
    induction l as [|t l IH]; [reflexivity|]. cbn [flat_map]. rewrite node_events_app, IH, app_nil_r. destruct (ta_body t); reflexivity.
  Qed.

  Lemma step_program now (w : fleet) ev w' q : fstep now w ev = Some w' ->
    not_of_tasks (node_events q (fl_log w')) = not_of_tasks (node_events q (fl_log w)) ++ program_of q [(now, ev)].
  Proof.
    intro H. destruct (events_thm _ _ _ _ H) as [ad [-> E]]. rewrite node_events_app, not_of_tasks_app. f_equal. clear H.
    assert (T : forall (q' : nat) (a : app_event Schedule Zone), match a with AWorker _ _ | ATick _ _ => True | _ => False end ->
      not_of_tasks (if Nat.eqb q' q then [(now, a)] else []) = []) by (intros q' a Ha; destruct (Nat.eqb q' q); [destruct a; try destruct Ha; reflexivity|reflexivity]).
    destruct ev as [|q0|q0 ev|o|i pick|i e|c|c|c|g|g|g|g|g n|g n n1 n2 o|g n|g|g c0 c1|g c|g|g c|g c]; cbn [program_of flat_map snd fst app] in *;
      try (match type of E with exists q i, _ /\ ad = [_] => idtac end; destruct E as [q1 [i1 [E1 E2]]]; subst ad; cbn [node_events flat_map snd fst app]; rewrite app_nil_r; apply T; exact Logic.I).
    - destruct E as [-> _]. reflexivity.
    - destruct E as [_ ->]. reflexivity.
    - destruct E as [E1 ->]. rewrite app_nil_r. cbn [node_events flat_map snd fst]. fold (node_events (Schedule := Schedule) (Zone := Zone) q).
      change (flat_map _ (flat_map ?f ?l)) with (node_events q (flat_map f l)). rewrite node_events_subs, app_nil_r.
      destruct (Nat.eqb q0 q); [|reflexivity]. destruct ev; try destruct E1; reflexivity.
    - destruct E as [_ ->]. reflexivity.
    - subst ad. reflexivity.
    - subst ad. reflexivity.
    - subst ad. reflexivity.
    - subst ad. reflexivity.
    - subst ad. reflexivity.
    - destruct E as [q1 [i1 [k [_ [_ ->]]]]]. cbn [node_events flat_map snd fst app].
      destruct (option_map s_phase _) as [[| | | | | |[j|err|]]|]; cbn [flat_map snd fst]; rewrite ?app_nil_r; try reflexivity; apply T; exact Logic.I.
    - destruct E as [k [_ ->]]. reflexivity.
    - destruct E as [q1 [i1 [k [_ [_ [_ ->]]]]]]. cbn [node_events flat_map snd fst app]. rewrite app_nil_r. apply T. exact Logic.I.
    - destruct E as [q1 [i1 [_ [os [-> _]]]]]. cbn [node_events flat_map snd fst].
      change (flat_map _ (map ?f ?l)) with (node_events q (map f l)). rewrite node_events_calls, app_nil_r. apply T. exact Logic.I.
    - destruct E as [q1 [i1 [r [_ ->]]]]. cbn [node_events flat_map snd fst]. rewrite app_nil_r. apply T. exact Logic.I.
    - destruct E as [q1 [i1 [_ [os ->]]]]. cbn [node_events flat_map snd fst].
      change (flat_map _ (map ?f ?l)) with (node_events q (map f l)). rewrite node_events_calls, app_nil_r. apply T. exact Logic.I.
    - destruct E as [q1 [i1 [r [_ ->]]]]. cbn [node_events flat_map snd fst]. rewrite app_nil_r. apply T. exact Logic.I.
  Qed.

  Lemma run_program q : forall es (w w' : fleet), frun w es = Some w' ->
    not_of_tasks (node_events q (fl_log w')) = not_of_tasks (node_events q (fl_log w)) ++ program_of q es.
  Proof.
    induction es as [|[now ev] es IH]; intros w w' H; cbn [fleet_run] in H.
    - injection H as <-. now rewrite app_nil_r.
    - destruct (fstep now w ev) as [w1|] eqn:E; [|discriminate]. rewrite (IH _ _ H), (step_program _ _ _ _ q E), <- app_assoc.
      f_equal. unfold program_of. cbn [flat_map]. now rewrite app_nil_r.
  Qed.

  Lemma step_homes now (w : fleet) ev w' : fstep now w ev = Some w' ->
    fl_homes w' = fl_homes w ++ connected [(now, ev)]
    /\ length (fl_nodes w') = (length (fl_nodes w) + match ev with FNode => 1 | _ => 0 end)%nat.
  Proof.
    intro H.
    assert (P : forall w1 w2 : fleet, fl_homes w2 = fl_homes w1 /\ length (fl_nodes w2) = length (fl_nodes w1) ->
      fl_homes w2 = fl_homes w1 ++ [] /\ length (fl_nodes w2) = (length (fl_nodes w1) + 0)%nat) by (intros w1 w2 [-> ->]; rewrite app_nil_r; auto).
    assert (Ho : forall q e w1 w2, onn now q e w1 = Some w2 -> fl_homes w2 = fl_homes w1 /\ length (fl_nodes w2) = length (fl_nodes w1)).
    { intros q e w1 w2 K. destruct (onn_log _ _ _ _ _ K) as [_ [-> [-> _]]]. auto. }
    assert (Hw : forall g e w1 w2, on_worker utc upcoming show now g e w1 = Some w2 -> fl_homes w2 = fl_homes w1 /\ length (fl_nodes w2) = length (fl_nodes w1)).
    { intros g e w1 w2 K. unfold on_worker in K. destruct (nth_error _ _) as [[q i]|]; [|discriminate]. exact (Ho _ _ _ _ K). }
    assert (Hk : forall g e w1 w2, on_tick utc upcoming show now g e w1 = Some w2 -> fl_homes w2 = fl_homes w1 /\ length (fl_nodes w2) = length (fl_nodes w1)).
    { intros g e w1 w2 K. unfold on_tick in K. destruct (nth_error _ _) as [[q i]|]; [|discriminate]. exact (Ho _ _ _ _ K). }
    destruct ev as [|q|q ev|o|i pick|i e|c|c|c|g|g|g|g|g n|g n n1 n2 o|g n|g|g c0 c1|g c|g|g c|g c]; cbn [fleet_step] in H; cbn [connected flat_map snd app];
      try (apply P; eapply Hw; exact H); try (apply P; eapply Hk; exact H); try (injection H as <-; apply P; split; reflexivity).
    - injection H as <-. cbn. rewrite app_length, app_nil_r. auto.
    - destruct (Nat.ltb _ _); [|discriminate]. injection H as <-. cbn. split; [reflexivity|lia].
    - apply P. unfold fleet_app in H.
      assert (G : forall ev, match onn now q ev w with
        | Some w' => let n := length (tasks_of q w) in Some (enlist_all ident now q n (skipn n (tasks_of q w')) w')
        | None => None end = Some w' -> fl_homes w' = fl_homes w /\ length (fl_nodes w') = length (fl_nodes w)).
      { intros e K. destruct (onn now q e w) as [w1|] eqn:E; [|discriminate]. cbn zeta in K. injection K as <-.
        destruct (enlist_log now q (skipn (length (tasks_of q w)) (tasks_of q w1)) (length (tasks_of q w)) w1) as [_ [E2 E3]]. cbn zeta in *.
        rewrite E2, E3. exact (Ho _ _ _ _ E). }
      destruct ev; try discriminate; try (eapply G; exact H).
      destruct (nth_error (fl_homes w) backend) as [z|]; [|discriminate]. destruct (Nat.eqb z q); [|discriminate]. exact (Ho _ _ _ _ H).
    - apply P. destruct o; try discriminate; injection H as <-; auto.
    - apply P. unfold fleet_poll in H. destruct (polled g w) as [k|]; [|discriminate].
      destruct (phase_of k _) as [[| | | | | |[j|err|]]|]; try (injection H as <-; auto); exact (Hw _ _ _ _ H).
    - apply P. unfold fleet_recv in H. destruct (polled g w) as [k|]; [|discriminate]. injection H as <-. auto.
    - apply P. unfold fleet_error in H. destruct (polled g w) as [k|]; [|discriminate]. destruct (phase_of k w) as [[]|]; try discriminate. exact (Hw _ _ _ _ H).
    - apply P. unfold fleet_end in H. destruct (on_worker utc upcoming show now g (WEnd n n1 n2 o) w) as [w1|] eqn:E; [|discriminate].
      rewrite <- (proj1 (Hw _ _ _ _ E)), <- (proj2 (Hw _ _ _ _ E)). destruct (task_of g w1) as [t|]; [|discriminate].
      destruct (ta_body t); try (injection H as <-; auto). destruct (flight_of n (w_flights w0)) as [[m|x|op]|]; injection H as <-; auto.
    - apply P. unfold fleet_answer in H. destruct (answers g n w) as [|[[| | | | | | | | | |[|r| |]]|] [|]]; try discriminate. exact (Hw _ _ _ _ H).
    - apply P. unfold fleet_wake in H. destruct (on_tick utc upcoming show now g (Wake c) w) as [w1|] eqn:E; [|discriminate].
      rewrite <- (proj1 (Hk _ _ _ _ E)), <- (proj2 (Hk _ _ _ _ E)). destruct (task_of g w1) as [t|]; [|discriminate].
      destruct (firings (ta_body t)) as [|[c' next] rest]; [injection H as <-; auto|].
      injection H as <-. match goal with |- context [fold_left _ ?l w1] => destruct (asks_log now g (S (length rest)) l w1) as [_ [E1 E2]] end. cbn zeta in *. cbn [length].
      rewrite E1, E2. auto.
    - apply P. unfold fleet_acted in H. destruct (task_of g w) as [t|]; [|discriminate].
      destruct (existsb _ _); [|destruct (forallb _ _); [|discriminate]]; exact (Hk _ _ _ _ H).
  Qed.

  Lemma run_homes : forall es (w w' : fleet), frun w es = Some w' ->
    fl_homes w' = fl_homes w ++ connected es
    /\ length (fl_nodes w') = (length (fl_nodes w) + length (filter (fun x => match snd x with FNode => true | _ => false end) es))%nat.
  Proof.
    induction es as [|[now ev] es IH]; intros w w' H; cbn [fleet_run] in H.
    - injection H as <-. cbn. rewrite app_nil_r. auto.
    - destruct (fstep now w ev) as [w1|] eqn:E; [|discriminate]. destruct (IH _ _ H) as [-> ->]. destruct (step_homes _ _ _ _ E) as [-> ->]. split.
      + rewrite <- app_assoc. f_equal. unfold connected. cbn [flat_map]. now rewrite app_nil_r.
      + cbn [filter snd]. destruct ev; cbn [length]; lia.
  Qed.

  Theorem parts_thm es w : frun (fleet_init t0) es = Some w ->
    fl_net w = nrun ident (n_found t0) (net_labels (fl_log w))
    /\ fl_homes w = connected es
    /\ length (fl_nodes w) = length (filter (fun x => match snd x with FNode => true | _ => false end) es)
    /\ (forall q s, nth_error (fl_nodes w) q = Some s -> exists pes rs,
          run process_init pes = Some (s, rs) /\ pes = node_events q (fl_log w) /\ not_of_tasks pes = program_of q es)
    /\ (forall q s t, nth_error (fl_nodes w) q = Some s -> In t (pr_tasks s) -> nth_error (connected es) (ta_backend t) = Some q)
    /\ NoDup (fl_places w)
    /\ (forall q i, In (q, i) (fl_places w) <-> exists s t, nth_error (fl_nodes w) q = Some s /\ nth_error (pr_tasks s) i = Some t).
  Proof.
    intro H. destruct (reach es w H) as [K [Pl _]]. destruct (run_homes _ _ _ H) as [E1 E2]. cbn [fleet_init fl_homes fl_nodes app length Nat.add] in E1, E2.
    split; [apply (k_net _ _ _ _ _ _ K)|]. split; [exact E1|]. split; [exact E2|]. split.
    { intros q s Hs. destruct (k_node _ _ _ _ _ _ K q s Hs) as [rs Hrs]. exists (node_events q (fl_log w)), rs. split; [exact Hrs|]. split; [reflexivity|].
      exact (run_program q es _ _ H). }
    split; [intros q s t Hs Ht; rewrite <- E1; exact (k_task _ _ _ _ _ _ K q s t Hs Ht)|].
    split; [eapply placed_nodup; exact Pl|]. intros q i. rewrite (placed_seat w q i Pl). unfold seat. cbn [fst snd].
    destruct (nth_error (fl_nodes w) q) as [s|]; split.
    - intros [t Ht]. eauto.
    - intros [s' [t [Hs Ht]]]. injection Hs as <-. eauto.
    - intros [t Ht]. discriminate.
    - intros [s' [t [Hs _]]]. discriminate.
  Qed.

  (** * All tasks *)
  Lemma crew_views es w : frun (fleet_init t0) es = Some w -> Permutation (VV hash w) (map (tv hash) (crew w)).
  Proof.
    intro H. destruct (reach es w H) as [_ [Pl _]].
    set (all := flat_map (fun q => map (pair q) (seq 0 (ntasks w q))) (seq 0 (length (fl_nodes w)))).
    assert (P : Permutation (fl_places w) all).
    { apply NoDup_Permutation; [eapply placed_nodup; exact Pl| |].
      - unfold all. generalize 0%nat at 2. generalize (length (fl_nodes w)). intros n b. revert b. induction n as [|n IH]; intro b; cbn [seq flat_map]; [constructor|].
        assert (Hd : forall x y : list (nat * nat), NoDup x -> NoDup y -> (forall a, In a x -> ~ In a y) -> NoDup (x ++ y)).
        { clear. induction x as [|a x IHx]; intros y Hx Hy Hxy; [exact Hy|]. apply NoDup_cons_iff in Hx. destruct Hx as [Hx1 Hx2].
          constructor; [|apply IHx; auto; intros b Hb; apply Hxy; right; exact Hb]. intro Ha. apply in_app_or in Ha.
          destruct Ha as [Ha|Ha]; [exact (Hx1 Ha)|]. exact (Hxy a (or_introl eq_refl) Ha). }
        apply Hd; [apply FinFun.Injective_map_NoDup; [intros x y E; congruence|apply seq_NoDup]|apply IH|].
        intros [q i] Ha Hb. apply in_map_iff in Ha. destruct Ha as [i1 [Ei _]]. injection Ei as <- _.
        apply in_flat_map in Hb. destruct Hb as [q1 [Hq1 Hb]]. apply in_map_iff in Hb. destruct Hb as [i2 [Ei2 _]]. injection Ei2 as -> _.
        apply in_seq in Hq1. lia.
      - intros [q i]. rewrite (placed_in w _ q i Pl). unfold all. rewrite in_flat_map. split.
        + intro Hi. exists q. split.
          * apply in_seq. unfold ntasks, tasks_of in Hi. destruct (nth_error (fl_nodes w) q) as [s|] eqn:E; [apply nth_lt in E; lia|cbn in Hi; lia].
          * apply in_map. apply in_seq. lia.
        + intros [q' [_ Hx]]. apply in_map_iff in Hx. destruct Hx as [i' [E Hi]]. injection E as -> ->. apply in_seq in Hi. lia. }
    unfold VV. etransitivity; [apply Permutation_map; exact P|].
    assert (E : map (vw hash w) all = map (tv hash) (crew w)); [|rewrite E; reflexivity].
    unfold all, crew. clear P Pl H all.
    assert (G : forall nodes f, (forall q s, nth_error nodes q = Some s -> f q = map (tv hash) (pr_tasks s)) ->
      flat_map f (seq 0 (length nodes)) = map (tv hash) (flat_map (@pr_tasks Schedule Zone) nodes)).
    { induction nodes as [|s nodes IH]; intros f Hf; [reflexivity|]. cbn [length seq flat_map]. rewrite map_app, (Hf 0%nat s eq_refl). f_equal.
      rewrite <- seq_shift, flat_map_map. apply (IH (fun q => f (S q))). intros q s' Hq. apply (Hf (S q)). exact Hq. }
    rewrite map_flat_map'. apply G. intros q s Hq. rewrite map_map. unfold ntasks, tasks_of. rewrite Hq.
    assert (G2 : forall (l : list tsk) (f : nat -> view), (forall i t, nth_error l i = Some t -> f i = tv hash t) -> map f (seq 0 (length l)) = map (tv hash) l).
    { clear. induction l as [|t l IH]; intros f Hf; [reflexivity|]. cbn [length seq map]. rewrite (Hf 0%nat t eq_refl). f_equal.
      rewrite <- seq_shift, map_map. apply IH. intros i t' Hi. apply (Hf (S i)). exact Hi. }
    apply G2. intros i t Ht. unfold vw, seat. cbn [fst snd]. rewrite Hq, Ht. reflexivity.
  Qed.

  Theorem given_thm es w : frun (fleet_init t0) es = Some w -> Permutation (yielded (tr w)) (flat_map takings (crew w)).
  Proof.
    intro H. destruct (reach es w H) as [_ [_ J]]. etransitivity; [apply (f_given _ _ _ _ _ _ _ _ J)|].
    etransitivity; [apply Permutation_flat_map; exact (crew_views es w H)|]. rewrite flat_map_map.
    erewrite flat_map_ext'; [reflexivity|]. intro t. unfold has_taken, takings, tv. cbn [v_worker]. destruct (ta_body t); reflexivity.
  Qed.

  Theorem calls_thm es w : frun (fleet_init t0) es = Some w ->
    Permutation (filter callable (map qc_op (q_calls (n_db (fl_net w))))) (called es ++ flat_map (dues hash) (crew w)).
  Proof.
    intro H. destruct (reach es w H) as [_ [_ J]]. etransitivity; [apply (f_calls _ _ _ _ _ _ _ _ J)|]. apply Permutation_app_head.
    etransitivity; [apply Permutation_flat_map; exact (crew_views es w H)|]. rewrite flat_map_map. reflexivity.
  Qed.

  (** * Streams *)
  Theorem stream_thm es w g t e wk : frun (fleet_init t0) es = Some w ->
    task_of g w = Some t -> ta_body t = BWorker e wk ->
    exists k st, nth_error (fl_streams w) g = Some (Some k) /\ nth_error (n_streams (fl_net w)) k = Some st
      /\ s_client st = ta_backend t /\ s_executor st = ex_name (xe_consts e)
      /\ jobs_taken wk = yields k (tr w)
      /\ (forall g', nth_error (fl_streams w) g' = Some (Some k) -> g' = g).
  Proof.
    intros H Ht Eb. destruct (reach es w H) as [K [Pl J]].
    destruct (f_worker _ _ _ _ _ _ _ _ J g (tv hash t) (ex_name (xe_consts e)) (jobs_taken wk) (VV_nth _ _ _ _ Ht)) as [k [S1 [S2 S3]]].
    { unfold tv. cbn. now rewrite Eb. }
    unfold names in S2. rewrite nth_error_map in S2. destruct (nth_error (n_streams (fl_net w)) k) as [st|] eqn:Est; [|discriminate].
    cbn in S2. assert (E1 : s_client st = ta_backend t) by congruence. assert (E2 : s_executor st = ex_name (xe_consts e)) by congruence.
    exists k, st. split; [exact S1|]. split; [exact Est|]. split; [exact E1|]. split; [exact E2|]. split; [symmetry; exact S3|].
    intros g' Hg'. exact (f_inj _ _ _ _ _ _ _ _ J g' g k Hg' S1).
  Qed.

  Theorem executor_thm es w t e wk j : sound_table t0 -> frun (fleet_init t0) es = Some w ->
    In t (crew w) -> ta_body t = BWorker e wk -> In j (jobs_taken wk) -> j_executor j = ex_name (xe_consts e).
  Proof.
    intros Hs H Ht Eb Hj. destruct (reach es w H) as [K [Pl J]].
    assert (Hg : exists g, task_of g w = Some t).
    { unfold crew in Ht. apply in_flat_map in Ht. destruct Ht as [s [Hn Ht]]. apply In_nth_error in Hn. destruct Hn as [q Hq].
      apply In_nth_error in Ht. destruct Ht as [i Hi].
      assert (Hin : In (q, i) (fl_places w)) by (apply (placed_seat w q i Pl); unfold seat; cbn; rewrite Hq; eauto).
      apply In_nth_error in Hin. destruct Hin as [g Hg]. exists g. rewrite task_of_seat, Hg. unfold seat. cbn. now rewrite Hq. }
    destruct Hg as [g Hg]. destruct (stream_thm es w g t e wk H Hg Eb) as [k [st [_ [E2 [_ [E4 [E5 _]]]]]]].
    rewrite E5 in Hj. unfold yields in Hj. apply in_flat_map in Hj. destruct Hj as [ev [Hev Hj]]. destruct ev as [|k' i j']; [destruct Hj|].
    destruct (Nat.eqb_spec k' k) as [->|]; [|destruct Hj]. destruct Hj as [<-|[]].
    destruct (yield_executor ident t0 _ Hs _ _ _ Hev) as [c Hc]. rewrite <- (k_net _ _ _ _ _ _ K) in Hc. unfold names in Hc.
    rewrite (map_nth_error _ _ _ E2) in Hc. congruence.
  Qed.

  (** Every stream belongs to a worker. *)
  Theorem streams_thm es w k st : frun (fleet_init t0) es = Some w -> nth_error (n_streams (fl_net w)) k = Some st ->
    exists g t e wk, task_of g w = Some t /\ ta_body t = BWorker e wk /\ nth_error (fl_streams w) g = Some (Some k) /\ s_client st = ta_backend t.
  Proof.
    intros H Hk. destruct (reach es w H) as [K [Pl J]].
    destruct (f_all _ _ _ _ _ _ _ _ J k) as [g Hg]; [unfold names; rewrite map_length; eapply nth_lt; exact Hk|].
    assert (Hl : (g < length (fl_places w))%nat).
    { apply nth_lt in Hg. rewrite (f_len _ _ _ _ _ _ _ _ J) in Hg. unfold VV in Hg. now rewrite map_length in Hg. }
    destruct (nth_error (fl_places w) g) as [x|] eqn:Ex; [|apply nth_error_None in Ex; lia].
    destruct (placed_task w g x Pl Ex) as [t Ht].
    assert (Et : task_of g w = Some t) by (rewrite task_of_seat, Ex; exact Ht).
    destruct (ta_body t) as [e wk| |] eqn:Eb.
    - destruct (stream_thm es w g t e wk H Et Eb) as [k' [st' [E1 [E2 [E3 _]]]]]. assert (k' = k) as -> by congruence.
      assert (st' = st) as -> by congruence. exists g, t, e, wk. auto.
    - exfalso. rewrite (f_loop _ _ _ _ _ _ _ _ J g (tv hash t) (VV_nth _ _ _ _ Et)) in Hg; [discriminate|]. unfold tv. cbn. now rewrite Eb.
    - exfalso. rewrite (f_loop _ _ _ _ _ _ _ _ J g (tv hash t) (VV_nth _ _ _ _ Et)) in Hg; [discriminate|]. unfold tv. cbn. now rewrite Eb.
  Qed.

  Lemma worker_can now g e ev (w : fleet) t wk wk' : task_of g w = Some t -> ta_body t = BWorker e wk -> ev <> WCancel -> wstep e wk ev = Some wk' ->
    exists w', on_worker utc upcoming show now g ev w = Some w' /\ task_of g w' = Some (mk_task (ta_backend t) (ta_token t) (BWorker e wk'))
      /\ fl_net w' = fl_net w.
  Proof.
    intros Ht Eb Hne Hw. unfold task_of in Ht. unfold on_worker. destruct (nth_error (fl_places w) g) as [[q i]|] eqn:Eg; [|discriminate].
    destruct (nth_error (fl_nodes w) q) as [s|] eqn:Eq; [|discriminate]. unfold on_node. rewrite Eq. cbn [app_step]. rewrite Ht.
    assert (Hs : worker_task_step show t ev = Some (mk_task (ta_backend t) (ta_token t) (BWorker e wk'))).
    { unfold worker_task_step. rewrite Eb, Hw. destruct ev; try reflexivity. congruence. }
    rewrite Hs. cbn [put_task]. eexists. split; [reflexivity|]. split; [|reflexivity].
    unfold task_of. cbn [fl_places fl_nodes]. rewrite Eg. erewrite nth_set_same by exact Eq. cbn. erewrite nth_set_same by exact Ht. reflexivity.
  Qed.

  (** When a worker's stream can be polled. *)
  Theorem poll_thm es w g t e wk now : frun (fleet_init t0) es = Some w -> task_of g w = Some t -> ta_body t = BWorker e wk ->
    (exists w', fstep now w (FPoll g) = Some w')
    <-> w_life wk = Working /\ w_transit wk = None /\ w_open wk = true /\ w_cancelled wk = false
        /\ match ex_max_concurrency (xe_consts e) with
           | Some l => l = 0 \/ Z.of_nat (length (w_flights wk)) < l
           | None => True
           end.
  Proof.
    intros H Ht Eb. destruct (stream_thm es w g t e wk H Ht Eb) as [k [st [E1 [E2 _]]]].
    assert (Hm : may_poll (ex_max_concurrency (xe_consts e)) wk = true <-> w_open wk = true /\ w_cancelled wk = false
        /\ match ex_max_concurrency (xe_consts e) with
           | Some l => l = 0 \/ Z.of_nat (length (w_flights wk)) < l
           | None => True
           end).
    { unfold may_poll. destruct (w_open wk), (w_cancelled wk); cbn [andb negb]; try (split; [discriminate|intros [? [? _]]; discriminate]).
      unfold below_limit. destruct (ex_max_concurrency (xe_consts e)) as [l|]; [|tauto].
      rewrite Bool.orb_true_iff, Z.eqb_eq, Z.ltb_lt. tauto. }
    rewrite <- Hm. cbn [fleet_step]. unfold fleet_poll, polled. rewrite Ht, E1, Eb. unfold polls. split.
    - intros [w' K]. destruct (w_life wk); try discriminate. destruct (w_transit wk); [discriminate|].
      destruct (may_poll _ _); [auto|discriminate].
    - intros [El [Htr Hp]]. rewrite El, Htr, Hp.
      assert (Hw : forall m, exists w', on_worker utc upcoming show now g (WTake m) (net now (NStream k now) w) = Some w').
      { intro m. assert (Hs : exists wk', wstep e wk (WTake m) = Some wk') by (unfold worker_step; rewrite El, Htr, Hp; eexists; reflexivity).
        destruct Hs as [wk' Hs]. change (task_of g w) with (task_of g (net now (NStream k now) w)) in Ht.
        destruct (worker_can now g e (WTake m) _ t wk wk' Ht Eb ltac:(discriminate) Hs) as [w' [Hw' _]]. eauto. }
      destruct (phase_of k (net now (NStream k now) w)) as [[| | | | | |[j|err|]]|]; eauto.
  Qed.

  (** * Calls *)
  Theorem made_thm es w g t : frun (fleet_init t0) es = Some w -> task_of g w = Some t ->
    calls_by w g = map (fun x => (fst x, Some (snd x))) (owed hash (ta_body t)).
  Proof.
    intros H Ht. destruct (reach es w H) as [K [_ J]].
    assert (E := f_asks _ _ _ _ _ _ _ _ J g (tv hash t) (VV_nth _ _ _ _ Ht)). cbn [tv v_owed] in E. rewrite <- E.
    unfold calls_by. apply map_ext. intro a. f_equal. unfold ops. symmetry. apply nth_error_map.
  Qed.

  Theorem asked_once es w n1 n2 a1 a2 : frun (fleet_init t0) es = Some w ->
    nth_error (fl_asks w) n1 = Some a1 -> nth_error (fl_asks w) n2 = Some a2 -> ak_call a1 = ak_call a2 -> n1 = n2.
  Proof. intros H. destruct (reach es w H) as [_ [_ J]]. apply (f_once _ _ _ _ _ _ _ _ J). Qed.

  Lemma task_ok_of es w g t : frun (fleet_init t0) es = Some w -> task_of g w = Some t ->
    exists q i s, nth_error (fl_places w) g = Some (q, i) /\ nth_error (fl_nodes w) q = Some s /\ nth_error (pr_tasks s) i = Some t
      /\ task_ok utc upcoming show (token_cancelled t s) t.
  Proof.
    intros H Ht. destruct (reach es w H) as [K _]. unfold task_of in Ht. destruct (nth_error (fl_places w) g) as [[q i]|] eqn:Eg; [|discriminate].
    destruct (nth_error (fl_nodes w) q) as [s|] eqn:Eq; [|discriminate]. destruct (k_node _ _ _ _ _ _ K q s Eq) as [rs Hr].
    exists q, i, s. do 3 (split; [first [reflexivity|assumption]|]). exact (i_ok _ _ _ _ _ (AppProofs.run_inv utc upcoming show _ _ _ Hr) t (nth_error_In _ _ Ht)).
  Qed.
  Lemma task_worker es w g t e wk : frun (fleet_init t0) es = Some w -> task_of g w = Some t -> ta_body t = BWorker e wk ->
    exists wes, worker_run (xe_codec e) (xe_fns e) show (ex_max_concurrency (xe_consts e)) worker_start wes = Some wk
      /\ winv (xe_codec e) (xe_fns e) show wk.
  Proof.
    intros H Ht Eb. destruct (task_ok_of es w g t H Ht) as [q [i [s [_ [_ [_ Hok]]]]]]. unfold task_ok in Hok. rewrite Eb in Hok.
    destruct Hok as [wes [Hr _]]. exists wes. split; [exact Hr|]. eapply run_winv. exact Hr.
  Qed.

  Lemma turn_asks es w g t n : frun (fleet_init t0) es = Some w -> task_of g w = Some t ->
    map (fun a => option_map qc_op (nth_error (q_calls (n_db (fl_net w))) (ak_call a))) (filter (fun a => Nat.eqb (ak_task a) g && Nat.eqb (ak_turn a) n) (fl_asks w))
    = map (fun x => Some (snd x)) (filter (fun x => Nat.eqb (fst x) n) (owed hash (ta_body t))).
  Proof.
    intros H Ht. pose proof (made_thm es w g t H Ht) as E. unfold calls_by in E.
    rewrite <- filter_filter.
    transitivity (map snd (filter (fun x => Nat.eqb (fst x) n)
       (map (fun a => (ak_turn a, option_map qc_op (nth_error (q_calls (n_db (fl_net w))) (ak_call a)))) (filter (fun a => Nat.eqb (ak_task a) g) (fl_asks w))))).
    - rewrite <- map_eq_filter with (P := fun a => Nat.eqb (ak_turn a) n) by reflexivity. rewrite map_map. reflexivity.
    - rewrite E. rewrite <- map_eq_filter with (P := fun x : nat * mop => Nat.eqb (fst x) n) by reflexivity. rewrite map_map. reflexivity.
  Qed.

  Lemma flight_story es w g t e wk n op : frun (fleet_init t0) es = Some w -> task_of g w = Some t -> ta_body t = BWorker e wk ->
    flight_of n (w_flights wk) = Some (FReporting op) ->
    w_life wk = Working /\ filter (fun x => Nat.eqb (fst x) n) (reports wk) = [(n, op)]
    /\ match op with OpComplete _ | OpDiscarded _ _ | OpCancelled _ _ | OpRetryable _ _ _ | OpSnoozed _ _ => True | _ => False end.
  Proof.
    intros H Ht Eb Hf. destruct (task_worker es w g t e wk H Ht Eb) as [wes [Hr [W1 [W2 [_ [W4 [W5 W6]]]]]]].
    assert (Hl : w_life wk = Working).
    { destruct (w_life wk) eqn:El; [reflexivity|rewrite W5 in Hf by reflexivity; discriminate|].
      exfalso. rewrite (crashed_empty _ _ _ _ Hr El) in Hf. discriminate. }
    split; [exact Hl|]. rewrite reports_story.
    assert (Hlt : (n < w_next wk)%nat) by (apply W2; eapply flight_in; exact Hf).
    specialize (W4 n Hlt). rewrite Hl, Hf in W4. inversion W4; subst. split; [reflexivity|]. eapply report_five. eassumption.
  Qed.

  Theorem report_thm es w g t e wk n op : frun (fleet_init t0) es = Some w -> task_of g w = Some t -> ta_body t = BWorker e wk ->
    flight_of n (w_flights wk) = Some (FReporting op) ->
    exists a pc, filter (fun a => Nat.eqb (ak_task a) g && Nat.eqb (ak_turn a) n) (fl_asks w) = [a]
      /\ nth_error (q_calls (n_db (fl_net w))) (ak_call a) = Some (mk_qcall op pc)
      /\ answers g n w = [Some pc].
  Proof.
    intros H Ht Eb Hf. destruct (flight_story es w g t e wk n op H Ht Eb Hf) as [_ [Hst _]].
    pose proof (turn_asks es w g t n H Ht) as E. rewrite Eb in E. cbn [owed] in E. rewrite Hst in E. cbn [map snd] in E.
    unfold answers.
    destruct (filter (fun a => Nat.eqb (ak_task a) g && Nat.eqb (ak_turn a) n) (fl_asks w)) as [|a [|a' l]] eqn:Ef; try discriminate.
    cbn [map] in E. injection E as E. destruct (nth_error (q_calls (n_db (fl_net w))) (ak_call a)) as [[o pc]|] eqn:Ec; [|discriminate]. injection E as E.
    cbn in E. subst o. exists a, pc. split; [reflexivity|]. split; [exact Ec|]. cbn [map]. rewrite Ec. reflexivity.
  Qed.

  Theorem answer_thm es w g t e wk n op : sound_table t0 -> frun (fleet_init t0) es = Some w -> task_of g w = Some t -> ta_body t = BWorker e wk ->
    flight_of n (w_flights wk) = Some (FReporting op) ->
    exists a pc, filter (fun a => Nat.eqb (ak_task a) g && Nat.eqb (ak_turn a) n) (fl_asks w) = [a]
      /\ nth_error (q_calls (n_db (fl_net w))) (ak_call a) = Some (mk_qcall op pc)
      /\ forall now, match pc with
         | QDone r => exists r' w' wk', r = RUnit r' /\ fstep now w (FAnswer g n) = Some w'
             /\ wstep e wk (WReported n r') = Some wk'
             /\ task_of g w' = Some (mk_task (ta_backend t) (ta_token t) (BWorker e wk'))
             /\ fl_net w' = fl_net w
         | _ => fstep now w (FAnswer g n) = None
         end.
  Proof.
    intros Hs H Ht Eb Hf. destruct (report_thm es w g t e wk n op H Ht Eb Hf) as [a [pc [E1 [E2 E4]]]].
    destruct (flight_story es w g t e wk n op H Ht Eb Hf) as [Hl [_ Hop]].
    exists a, pc. split; [exact E1|]. split; [exact E2|]. intro now. cbn [fleet_step]. unfold fleet_answer. rewrite E4.
    destruct pc as [| | | | | | | | | |r]; try reflexivity.
    assert (Hfit : answer_fits op r).
    { destruct (reach es w H) as [K _]. rewrite (k_net _ _ _ _ _ _ K) in E2.
      destruct (projection ident (n_found t0) (net_labels (fl_log w))) as [qs [Q1 _]]. rewrite Q1 in E2.
      exact (answers_fit ident t0 qs Hs _ _ _ E2). }
    assert (Hr : exists r', r = RUnit r') by (destruct op; try destruct Hop; exact Hfit).
    destruct Hr as [r' ->]. exists r'.
    assert (Hw : exists wk', wstep e wk (WReported n r') = Some wk').
    { unfold worker_step. rewrite Hl, Hf. destruct r'; eexists; reflexivity. }
    destruct Hw as [wk' Hw]. destruct (worker_can now g e (WReported n r') w t wk wk' Ht Eb ltac:(discriminate) Hw) as [w' [W1 [W2 W3]]].
    exists w', wk'. auto.
  Qed.

  (** * Loops *)
  Theorem acted_thm es w g t c now w' : frun (fleet_init t0) es = Some w -> task_of g w = Some t -> fstep now w (FActed g c) = Some w' ->
    exists cs q i, nth_error (fl_places w) g = Some (q, i)
      /\ map qc_op cs = map snd (filter (fun x => Nat.eqb (fst x) (length (firings (ta_body t)))) (owed hash (ta_body t)))
      /\ (forall x, In x cs -> In x (q_calls (n_db (fl_net w))))
      /\ ((exists x, In x cs /\ (qc_pc x = QDone (RId Panic) \/ qc_pc x = QDone (RUnit Panic)))
            /\ fl_log w' = fl_log w ++ [(now, OnNode q (ATick i (Acted c true)))]
          \/ (forall x, In x cs -> exists r, qc_pc x = QDone r /\ r <> RId Panic /\ r <> RUnit Panic)
            /\ fl_log w' = fl_log w ++ [(now, OnNode q (ATick i (Acted c false)))]).
  Proof.
    intros H Ht Hs. cbn [fleet_step] in Hs. unfold fleet_acted in Hs. rewrite Ht in Hs. unfold answers in Hs.
    set (n := length (firings (ta_body t))) in *. pose proof (turn_asks es w g t n H Ht) as E.
    set (l := filter (fun a => Nat.eqb (ak_task a) g && Nat.eqb (ak_turn a) n) (fl_asks w)) in *.
    set (at_ := fun a => nth_error (q_calls (n_db (fl_net w))) (ak_call a)) in *.
    assert (Hc : exists cs, map at_ l = map Some cs).
    { clear Hs. assert (G : forall l (xs : list (nat * mop)), map (fun a => option_map qc_op (at_ a)) l = map (fun x => Some (snd x)) xs ->
        exists cs, map at_ l = map Some cs).
      { clear. induction l as [|a l IH]; intros xs E; [exists []; reflexivity|]. destruct xs as [|x xs]; [discriminate|].
        cbn [map] in E. injection E as E1 E2. destruct (IH _ E2) as [cs Hcs]. destruct (at_ a) as [c|] eqn:Ec; [|discriminate].
        exists (c :: cs). cbn [map]. rewrite Ec, Hcs. reflexivity. }
      eapply G. exact E. }
    destruct Hc as [cs Hcs].
    assert (R : map (fun a => option_map qc_pc (at_ a)) l = map (fun x => Some (qc_pc x)) cs).
    { rewrite <- (map_map at_ (option_map qc_pc)), Hcs, map_map. reflexivity. }
    assert (R2 : map (fun x => Some (qc_op x)) cs = map (fun x => Some (snd x)) (filter (fun x => Nat.eqb (fst x) n) (owed hash (ta_body t)))).
    { rewrite <- E. change (map (fun a => option_map qc_op (nth_error (q_calls (n_db (fl_net w))) (ak_call a))) l) with (map (fun a => option_map qc_op (at_ a)) l).
      rewrite <- (map_map at_ (option_map qc_op)), Hcs, map_map. reflexivity. }
    assert (Hlog : forall b, on_tick utc upcoming show now g (Acted c b) w = Some w' ->
      exists q i, nth_error (fl_places w) g = Some (q, i) /\ fl_log w' = fl_log w ++ [(now, OnNode q (ATick i (Acted c b)))]).
    { intros b K. exact (tick_log _ _ _ _ _ K). }
    assert (C1 : map qc_op cs = map snd (filter (fun x => Nat.eqb (fst x) n) (owed hash (ta_body t)))).
    { apply (f_equal (map (fun o => match o with Some x => x | None => OpSubscribe EmptyString end))) in R2. rewrite !map_map in R2. exact R2. }
    assert (C2 : forall x, In x cs -> In x (q_calls (n_db (fl_net w)))).
    { intros x Hx. apply (in_map Some) in Hx. rewrite <- Hcs in Hx. apply in_map_iff in Hx. destruct Hx as [a [Hx _]]. eapply nth_error_In. exact Hx. }
    change (map (fun a => option_map qc_pc (nth_error (q_calls (n_db (fl_net w))) (ak_call a))) l) with (map (fun a => option_map qc_pc (at_ a)) l) in Hs.
    rewrite R in Hs. destruct (existsb panics _) eqn:Ex.
    - destruct (Hlog _ Hs) as [q [i [L1 L2]]]. exists cs, q, i. split; [exact L1|]. split; [exact C1|]. split; [exact C2|]. left. split; [|exact L2].
      apply existsb_exists in Ex. destruct Ex as [y [Hy Hp]]. apply in_map_iff in Hy.
      destruct Hy as [x [<- Hx]]. exists x. split; [exact Hx|]. cbn in Hp. destruct (qc_pc x) as [| | | | | | | | | |[[| |]|[| |]| |]]; try discriminate; auto.
    - destruct (forallb answered _) eqn:Ed; [|discriminate]. destruct (Hlog _ Hs) as [q [i [L1 L2]]]. exists cs, q, i. split; [exact L1|].
      split; [exact C1|]. split; [exact C2|]. right. split; [|exact L2]. intros x Hx.
      assert (Hin : In (Some (qc_pc x)) (map (fun x => Some (qc_pc x)) cs)) by (apply (in_map (fun x => Some (qc_pc x))); exact Hx).
      assert (Hp : panics (Some (qc_pc x)) = false).
      { destruct (panics (Some (qc_pc x))) eqn:Ep; [|reflexivity]. rewrite <- Ex. symmetry. apply existsb_exists. eauto. }
      rewrite forallb_forall in Ed. specialize (Ed _ Hin). cbn in Ed. destruct (qc_pc x) as [| | | | | | | | | |r]; try discriminate.
      exists r. split; [reflexivity|]. split; intros ->; discriminate.
  Qed.
End Thms.
