(** Lemmas about what processes that share a Postgres database can always do next. *)
From Coq Require Import Lia Permutation.
From Verif Require Import Base Chrono Types Query Memory MemSpec MemConc MemWake PgRow PgQuery Pg PgConc PgConcSpec PgConcPast PgConcProofs PgConcEnd PgConcLive
  PgListen PgListenProofs Codec Builder Runner RunnerSpec WorkerProofs Ticker Pruner ApiProofs App AppSpec AppProofs AppEnd PropsApp
  World WorldSpec WorldProofs WorldInv WorldThms WorldLive Fleet FleetSpec FleetLink FleetInv FleetThms.

(** * The database *)

(** A call that has returned stays so. *)
Definition back (s : qstate) (c : nat) : Prop := exists x r, nth_error (q_calls s) c = Some x /\ qc_pc x = QDone r.
Section Back.
  Variable ident : option Z -> option string -> list status -> Z.
  Lemma back_step s l c : back s c -> back (fst (qstep ident s l)) c.
  Proof.
    intros [x [r [H1 H2]]]. destruct l as [o|i now pick|i e]; cbn [qstep].
    - exists x, r. cbn. rewrite nth_error_app1 by (eapply nth_lt; exact H1). auto.
    - destruct (nth_error (q_calls s) i) as [d|] eqn:Ei; [|exists x, r; auto].
      destruct (PgConc.action ident i now pick (q_calls s) (q_tbl s) d) as [[t' pc'] ev] eqn:Ea. unfold back. cbn [fst q_calls].
      destruct (Nat.eq_dec i c) as [->|Hne].
      + assert (d = x) as -> by congruence. destruct x as [o pc]. cbn in H2. subst pc. rewrite action_done in Ea. injection Ea as <- <- <-.
        rewrite (nth_set_same _ _ _ _ H1). eexists _, r. auto.
      + rewrite nth_set_nth_other by congruence. eauto.
    - destruct (nth_error (q_calls s) i) as [d|] eqn:Ei; [|exists x, r; auto]. unfold back. cbn [fst q_calls].
      destruct (Nat.eq_dec i c) as [->|Hne].
      + rewrite (nth_set_same _ _ _ _ H1). eexists _, _. split; reflexivity.
      + rewrite nth_set_nth_other by congruence. eauto.
  Qed.
  Lemma back_run ls : forall s c, back s c -> back (qrun ident s ls) c.
  Proof. induction ls as [|l ls IH]; intros s c H; [exact H|]. cbn [qrun]. apply IH, back_step, H. Qed.
  Lemma back_net s l c : back (n_db s) c -> back (n_db (fst (nstep ident s l))) c.
  Proof. destruct (db_step_label ident s l) as [qs [-> _]]. apply back_run. Qed.
  Lemma ndb_net s q : n_db (fst (nstep ident s (NDb q))) = fst (qstep ident (n_db s) q) /\ n_streams (fst (nstep ident s (NDb q))) = n_streams s.
  Proof. cbn [nstep]. unfold db_step. destruct (qstep ident (n_db s) q) as [db evs]. cbn. auto. Qed.
End Back.

Section Ends.
  Context {Schedule Zone : Type}.
  Variable utc : Zone.
  Variable upcoming : Schedule -> Zone -> time -> option time.
  Variable show : Z -> string.
  Variable hash : forall e : executor, xe_data e -> Z.
  Variable ident : option Z -> option string -> list status -> Z.
  Variable t0 : tbl.
  Notation fleet := (fleet Schedule Zone).
  Notation tsk := (task Schedule Zone).
  Notation onn := (on_node utc upcoming show).
  Notation net := (on_net (Schedule := Schedule) (Zone := Zone) ident).
  Notation fstep := (fleet_step utc upcoming show hash ident).
  Notation frun := (fleet_run utc upcoming show hash ident).
  Notation wstep e := (worker_step (xe_codec e) (xe_fns e) show (ex_max_concurrency (xe_consts e))).
  Notation reach := (reach_good utc upcoming show hash ident t0).

  (** * Calls that are waited for *)
  Definition covered (w : fleet) (a : ask) : Prop :=
    exists t, task_of (ak_task a) w = Some t /\ (pending t (ak_turn a) \/ back (n_db (fl_net w)) (ak_call a)).
  Definition all_covered (w : fleet) : Prop := forall a, In a (fl_asks w) -> covered w a.

  Lemma net_covered now l w : all_covered w -> all_covered (net now l w).
  Proof.
    intros K a Ha. destruct (K a Ha) as [t [H1 H2]]. exists t. split; [exact H1|]. destruct H2 as [H2|H2]; [left; exact H2|right].
    cbn [on_net fl_net]. apply back_net, H2.
  Qed.
  Lemma ask_covered now g n t o w : task_of g w = Some t -> pending t n -> all_covered w -> all_covered (fleet_ask ident now g n o w).
  Proof.
    intros Ht Hp K a Ha. unfold fleet_ask in Ha. cbn [fl_asks] in Ha. apply in_app_or in Ha. destruct Ha as [Ha|[<-|[]]].
    - destruct (net_covered now (NDb (QCall o)) w K a Ha) as [t' [A B]]. exists t'. auto.
    - exists t. cbn [ak_task ak_turn]. auto.
  Qed.
  Lemma asks_covered now g n t : forall l w, task_of g w = Some t -> pending t n -> all_covered w ->
    all_covered (fold_left (fun w o => fleet_ask ident now g n o w) l w).
  Proof.
    induction l as [|o l IH]; intros w Ht Hp K; [exact K|]. cbn [fold_left]. apply IH; [exact Ht|exact Hp|]. eapply ask_covered; eassumption.
  Qed.
  Lemma task_of_more g (w w' : fleet) t : fl_nodes w' = fl_nodes w -> (exists l, fl_places w' = fl_places w ++ l) ->
    task_of g w = Some t -> task_of g w' = Some t.
  Proof.
    intros E1 [l E2] H. unfold task_of in *. rewrite E1, E2. destruct (nth_error (fl_places w) g) as [x|] eqn:Eg; [|discriminate].
    rewrite nth_error_app1 by (eapply nth_lt; exact Eg). rewrite Eg. exact H.
  Qed.
  Lemma enlist_covered now q : forall l i w, all_covered w -> all_covered (enlist_all ident now q i l w).
  Proof.
    induction l as [|t l IH]; intros i w K; [exact K|]. cbn [enlist_all]. apply IH. unfold enlist.
    destruct (ta_body t); intros a Ha; cbn [fl_asks on_net] in Ha.
    - destruct (net_covered now (NSubscribe (ta_backend t) (ex_name (xe_consts e))) w K a Ha) as [t' [A B]]. exists t'. split; [|exact B].
      eapply task_of_more; [| |exact A]; [reflexivity|cbn; eauto].
    - destruct (K a Ha) as [t' [A B]]. exists t'. split; [|exact B]. eapply task_of_more; [| |exact A]; [reflexivity|cbn; eauto].
    - destruct (K a Ha) as [t' [A B]]. exists t'. split; [|exact B]. eapply task_of_more; [| |exact A]; [reflexivity|cbn; eauto].
  Qed.

  (** A step of a process keeps every call covered, if a turn is over only when its calls are. *)
  Lemma onn_covered now q ev (w w' : fleet) : onn now q ev w = Some w' -> NoDup (fl_places w) ->
    (forall i n r g a, ev = AWorker i (WReported n r) -> nth_error (fl_places w) g = Some (q, i) -> In a (fl_asks w) -> ak_task a = g -> ak_turn a = n ->
       back (n_db (fl_net w)) (ak_call a)) ->
    (forall i c g t a, ev = ATick i (Acted c false) -> nth_error (fl_places w) g = Some (q, i) -> task_of g w = Some t -> In a (fl_asks w) -> ak_task a = g ->
       ak_turn a = length (firings (ta_body t)) -> back (n_db (fl_net w)) (ak_call a)) ->
    all_covered w -> all_covered w'.
  Proof.
    intros H Hn Hw Ht K a Ha. unfold on_node in H. destruct (nth_error (fl_nodes w) q) as [s|] eqn:Eq; [|discriminate].
    destruct (app_step utc upcoming show now s ev) as [[s' r]|] eqn:E; [|discriminate]. injection H as <-. cbn [fl_asks] in Ha.
    destruct (K a Ha) as [t [H1 H2]]. unfold covered. cbn [fl_net].
    assert (Hc : forall t', task_of (ak_task a) (mk_fleet (fl_net w) (fl_homes w) (set_nth q s' (fl_nodes w)) (fl_places w) (fl_streams w) (fl_asks w) (fl_log w ++ [(now, OnNode q ev)])) = Some t' ->
       (pending t (ak_turn a) -> pending t' (ak_turn a) \/ back (n_db (fl_net w)) (ak_call a)) ->
       exists t1, task_of (ak_task a) (mk_fleet (fl_net w) (fl_homes w) (set_nth q s' (fl_nodes w)) (fl_places w) (fl_streams w) (fl_asks w) (fl_log w ++ [(now, OnNode q ev)])) = Some t1
         /\ (pending t1 (ak_turn a) \/ back (n_db (fl_net w)) (ak_call a))).
    { intros t' A B. exists t'. split; [exact A|]. destruct H2 as [H2|H2]; [apply B, H2|right; exact H2]. }
    pose proof H1 as H1'. unfold task_of in H1. destruct (nth_error (fl_places w) (ak_task a)) as [[q1 i1]|] eqn:Eg; [|discriminate].
    destruct (nth_error (fl_nodes w) q1) as [s1|] eqn:Eq1; [|discriminate].
    destruct (Nat.eq_dec q1 q) as [->|Hq].
    - assert (s1 = s) as -> by congruence.
      destruct (step_task utc upcoming show _ _ _ _ _ _ _ E H1) as [t' [G1 G3]].
      apply (Hc t'); [unfold task_of; cbn [fl_places fl_nodes]; rewrite Eg, (nth_set_same _ _ _ _ Eq); exact G1|]. intro P.
      destruct G3 as [->|[[_ ->]|[[e [-> G3]]|[e [-> G3]]]]].
      + left. exact P.
      + left. apply told_pending, P.
      + destruct (worker_pending _ _ _ _ _ G3 P) as [P'|[r0 ->]]; [left; exact P'|]. right. eapply Hw; eauto.
      + destruct (tick_pending _ _ _ _ _ _ _ G3 P) as [P'|[c [-> En]]]; [left; exact P'|]. right. eapply Ht; eauto.
    - apply (Hc t); [|auto]. unfold task_of. cbn [fl_places fl_nodes]. rewrite Eg, nth_set_nth_other by congruence. rewrite Eq1. exact H1.
  Qed.

  Lemma answered_back g n (w : fleet) a : In a (fl_asks w) -> ak_task a = g -> ak_turn a = n ->
    forallb answered (answers g n w) = true -> back (n_db (fl_net w)) (ak_call a).
  Proof.
    intros Ha Hi Hn Hf. rewrite forallb_forall in Hf. specialize (Hf (option_map qc_pc (nth_error (q_calls (n_db (fl_net w))) (ak_call a)))).
    assert (Hin : In (option_map qc_pc (nth_error (q_calls (n_db (fl_net w))) (ak_call a))) (answers g n w)).
    { unfold answers. apply in_map_iff. exists a. split; [reflexivity|]. apply filter_In. split; [exact Ha|]. subst. now rewrite !Nat.eqb_refl. }
    specialize (Hf Hin). unfold back. destruct (nth_error (q_calls (n_db (fl_net w))) (ak_call a)) as [x|]; [|discriminate]. exists x.
    cbn in Hf. destruct (qc_pc x) eqn:Ep; try discriminate. eauto.
  Qed.

  Lemma step_covered now w ev w' : fstep now w ev = Some w' -> NoDup (fl_places w) -> all_covered w -> all_covered w'.
  Proof.
    intros H Hn K.
    assert (Hp : forall now q e (w w' : fleet), onn now q e w = Some w' -> NoDup (fl_places w) ->
              match e with AWorker _ (WReported _ _) | ATick _ (Acted _ false) => False | _ => True end -> all_covered w -> all_covered w').
    { intros now0 q e w0 w0' H0 Hn0 Hm K0. eapply onn_covered; [exact H0|exact Hn0| | |exact K0]; intros; subst; destruct Hm. }
    assert (Hw : forall now g e (w w' : fleet), on_worker utc upcoming show now g e w = Some w' -> NoDup (fl_places w) ->
              match e with WReported _ _ => False | _ => True end -> all_covered w -> all_covered w').
    { intros now0 g e w0 w0' H0 Hn0 Hm K0. unfold on_worker in H0. destruct (nth_error _ g) as [[q i]|]; [|discriminate].
      eapply Hp; [exact H0|exact Hn0| |exact K0]. destruct e; auto. }
    assert (Htk : forall now g e (w w' : fleet), on_tick utc upcoming show now g e w = Some w' -> NoDup (fl_places w) ->
              match e with Acted _ false => False | _ => True end -> all_covered w -> all_covered w').
    { intros now0 g e w0 w0' H0 Hn0 Hm K0. unfold on_tick in H0. destruct (nth_error _ g) as [[q i]|]; [|discriminate].
      eapply Hp; [exact H0|exact Hn0| |exact K0]. destruct e; auto. }
    destruct ev as [|q|q ev|o|i pick|i e|c|c|c|g|g|g|g|g n|g n n1 n2 o|g n|g|g c0 c1|g c|g|g c|g c]; cbn [fleet_step] in H.
    - injection H as <-. intros a Ha. destruct (K a Ha) as [t [A B]]. exists t. split; [|exact B]. unfold task_of in *. cbn [fl_places fl_nodes].
      destruct (nth_error (fl_places w) (ak_task a)) as [[q i]|]; [|discriminate]. destruct (nth_error (fl_nodes w) q) as [s|] eqn:Eq; [|discriminate].
      rewrite nth_error_app1 by (eapply nth_lt; exact Eq). rewrite Eq. exact A.
    - destruct (Nat.ltb _ _); [|discriminate]. cbn zeta in H. injection H as <-. intros a Ha. exact (net_covered now NOpen w K a Ha).
    - unfold fleet_app in H.
      destruct ev; try discriminate;
        try (destruct (onn now q _ w) as [w1|] eqn:E; [|discriminate]; cbn zeta in H; injection H as <-; apply enlist_covered; eapply Hp; [exact E|exact Hn|exact Logic.I|exact K]).
      destruct (nth_error (fl_homes w) _); [|discriminate]. destruct (Nat.eqb _ _); [|discriminate]. eapply Hp; [exact H|exact Hn|exact Logic.I|exact K].
    - unfold fleet_call in H. destruct o; try discriminate; injection H as <-; apply net_covered, K.
    - injection H as <-. apply net_covered, K.
    - injection H as <-. apply net_covered, K.
    - injection H as <-. apply net_covered, K.
    - injection H as <-. apply net_covered, K.
    - injection H as <-. apply net_covered, K.
    - unfold fleet_poll in H. destruct (polled g w) as [k|]; [|discriminate]. pose proof (net_covered now (NStream k now) w K) as K1.
      cbn zeta in H. destruct (phase_of k _) as [ph|]; [|injection H as <-; exact K1].
      destruct ph as [| | | | | |[j|err|]]; try (injection H as <-; exact K1); eapply Hw; try exact H; try exact Hn; try exact Logic.I; exact K1.
    - unfold fleet_recv in H. destruct (polled g w) as [k|]; [|discriminate]. injection H as <-. apply net_covered, K.
    - unfold fleet_error in H. destruct (polled g w) as [k|]; [|discriminate]. destruct (phase_of k w) as [[]|]; try discriminate.
      eapply Hw; [exact H|exact Hn|exact Logic.I|]. apply net_covered, K.
    - eapply Hw; [exact H|exact Hn|exact Logic.I|exact K].
    - eapply Hw; [exact H|exact Hn|exact Logic.I|exact K].
    - unfold fleet_end in H. destruct (on_worker utc upcoming show now g _ w) as [w1|] eqn:E1; [|discriminate].
      assert (K1 : all_covered w1) by (eapply Hw; [exact E1|exact Hn|exact Logic.I|exact K]).
      destruct (task_of g w1) as [t|] eqn:Et; [|discriminate].
      destruct (ta_body t) as [e wk| |] eqn:Eb; try (injection H as <-; exact K1).
      destruct (flight_of n (w_flights wk)) as [[m|x|op]|] eqn:Ef; try (injection H as <-; exact K1).
      injection H as <-. eapply ask_covered; [exact Et| |exact K1]. right. rewrite Eb. eauto.
    - unfold fleet_answer in H. destruct (answers g n w) as [|[[| | | | | | | | | |r]|] [|]] eqn:Er; try discriminate; destruct r as [|r| |]; try discriminate.
      unfold on_worker in H. destruct (nth_error (fl_places w) g) as [[q i]|] eqn:Eg; [|discriminate].
      eapply onn_covered; [exact H|exact Hn| | |exact K]; [|intros; discriminate].
      intros i0 n0 r0 g0 a E Hg0 Ha Hi Hm. injection E as <- <- <-.
      assert (g0 = g) as ->.
      { apply (proj1 (NoDup_nth_error (fl_places w)) Hn); [eapply nth_lt; exact Hg0|congruence]. }
      apply (answered_back g n w a Ha Hi Hm). rewrite Er. reflexivity.
    - eapply Hw; [exact H|exact Hn|exact Logic.I|exact K].
    - eapply Htk; [exact H|exact Hn|exact Logic.I|exact K].
    - unfold fleet_wake in H. destruct (on_tick utc upcoming show now g _ w) as [w1|] eqn:E1; [|discriminate].
      assert (K1 : all_covered w1) by (eapply Htk; [exact E1|exact Hn|exact Logic.I|exact K]).
      destruct (task_of g w1) as [t|] eqn:Et; [|discriminate].
      destruct (firings (ta_body t)) as [|[c' next] l] eqn:Ef; [injection H as <-; exact K1|].
      injection H as <-. eapply asks_covered; [exact Et| |exact K1]. replace (S (length l)) with (length (firings (ta_body t))) by (rewrite Ef; reflexivity). right.
      unfold on_tick in E1. destruct (nth_error (fl_places w) g) as [[q i]|] eqn:Eg; [|discriminate].
      unfold on_node in E1. destruct (nth_error (fl_nodes w) q) as [s|] eqn:Eq; [|discriminate]. cbn [app_step] in E1.
      destruct (nth_error (pr_tasks s) i) as [tt|] eqn:Et0; [|discriminate].
      destruct (tick_task_step _ _ _ _ _) as [t1|] eqn:Es; [|discriminate]. cbn [put_task] in E1. injection E1 as <-.
      unfold task_of in Et. cbn [fl_places fl_nodes] in Et. rewrite Eg, (nth_set_same _ _ _ _ Eq) in Et. cbn [pr_tasks] in Et.
      rewrite (nth_set_same _ _ _ _ Et0) in Et. injection Et as ->.
      unfold tick_task_step in Es. destruct tt as [tb tk [e wk|e sc z data k|sc cfg k]]; cbn [ta_body ta_backend ta_token] in Es; [discriminate|..].
      + unfold tick_step in Es. destruct (tk_phase k); try discriminate. destruct (_ && _); [|discriminate]. injection Es as <-. cbn. split; [reflexivity|eauto].
      + unfold tick_step in Es. destruct (tk_phase k); try discriminate. destruct (_ && _); [|discriminate]. injection Es as <-. cbn. split; [reflexivity|eauto].
    - eapply Htk; [exact H|exact Hn|exact Logic.I|exact K].
    - unfold fleet_acted in H. destruct (task_of g w) as [t|] eqn:Et; [|discriminate].
      cbn zeta in H. destruct (existsb panics _); [eapply Htk; [exact H|exact Hn|exact Logic.I|exact K]|].
      destruct (forallb answered _) eqn:Ed; [|discriminate].
      unfold on_tick in H. destruct (nth_error (fl_places w) g) as [[q i]|] eqn:Eg; [|discriminate].
      eapply onn_covered; [exact H|exact Hn| | |exact K]; [intros; discriminate|].
      intros i0 c0 g0 tt a E Hg0 Htt Ha Hi Hm. injection E as <- <-.
      assert (g0 = g) as ->.
      { apply (proj1 (NoDup_nth_error (fl_places w)) Hn); [eapply nth_lt; exact Hg0|congruence]. }
      assert (tt = t) as -> by congruence. eapply answered_back; eauto.
    - eapply Htk; [exact H|exact Hn|exact Logic.I|exact K].
  Qed.

  Theorem covered_thm es w : frun (fleet_init t0) es = Some w -> all_covered w.
  Proof.
    revert w. induction es as [|[now ev] es IH] using rev_ind; intros w H.
    - cbn in H. injection H as <-. intros a [].
    - rewrite (frun_app utc upcoming show hash ident) in H. destruct (frun (fleet_init t0) es) as [w1|] eqn:E; [|discriminate].
      cbn [fleet_run] in H. destruct (fstep now w1 ev) as [w2|] eqn:E2; [|discriminate]. injection H as <-.
      eapply step_covered; [exact E2| |apply IH; reflexivity]. destruct (reach es w1 E) as [_ [Pl _]]. eapply placed_nodup; exact Pl.
  Qed.

  (** * What can always happen next *)
  Definition reached (w : fleet) : Prop := exists es, frun (fleet_init t0) es = Some w.
  Lemma reached_more w es' w' : reached w -> frun w es' = Some w' -> reached w'.
  Proof. intros [es H] R. exists (es ++ es'). rewrite (frun_app utc upcoming show hash ident), H. exact R. Qed.
  Lemma reached_nodup w : reached w -> NoDup (fl_places w).
  Proof. intros [es H]. destruct (reach es w H) as [_ [Pl _]]. eapply placed_nodup; exact Pl. Qed.

  (** Nothing but task [g] has changed in the processes. *)
  Record aside (g : nat) (w w' : fleet) : Prop := mk_aside {
    as_places : fl_places w' = fl_places w;
    as_homes : fl_homes w' = fl_homes w;
    as_streams : fl_streams w' = fl_streams w;
    as_nodes : forall q, option_map (fun s => (pr_rexecutors s, pr_cell s)) (nth_error (fl_nodes w') q)
                       = option_map (fun s => (pr_rexecutors s, pr_cell s)) (nth_error (fl_nodes w) q);
    as_others : forall k, k <> g -> task_of k w' = task_of k w;
    as_task : forall t t', task_of g w = Some t -> task_of g w' = Some t' ->
                ta_token t' = ta_token t /\ ta_backend t' = ta_backend t /\ purpose t' = purpose t;
    as_stays : task_of g w <> None -> task_of g w' <> None
  }.
  Lemma aside_refl g w : aside g w w.
  Proof. constructor; auto; intros; try congruence. assert (t' = t) as -> by congruence. auto. Qed.
  Lemma aside_trans g w1 w2 w3 : aside g w1 w2 -> aside g w2 w3 -> aside g w1 w3.
  Proof.
    intros [A1 A2 A3 A4 A5 A6 A7] [B1 B2 B3 B4 B5 B6 B7]. constructor; try congruence.
    - intros k Hk. rewrite B5, A5 by exact Hk. reflexivity.
    - intros t t' Ht Ht'. destruct (task_of g w2) as [t2|] eqn:E2.
      + destruct (A6 t t2 Ht eq_refl) as [X1 [X2 X3]]. destruct (B6 t2 t' eq_refl Ht') as [Y1 [Y2 Y3]]. split; [|split]; congruence.
      + exfalso. apply A7; congruence.
    - auto.
  Qed.

  (** Calls have gone on, and nothing else has happened. *)
  Record calls_only (w w' : fleet) : Prop := mk_calls_only {
    co_nodes : fl_nodes w' = fl_nodes w;
    co_places : fl_places w' = fl_places w;
    co_homes : fl_homes w' = fl_homes w;
    co_streams : fl_streams w' = fl_streams w;
    co_asks : fl_asks w' = fl_asks w;
    co_net : n_streams (fl_net w') = n_streams (fl_net w)
  }.
  Lemma co_task w w' g : calls_only w w' -> task_of g w' = task_of g w.
  Proof. intros [A B _ _ _ _]. unfold task_of. rewrite A, B. reflexivity. Qed.
  Lemma co_aside w w' g : calls_only w w' -> aside g w w'.
  Proof.
    intro C. pose proof C as [A B D E F G]. constructor; auto.
    - intro q. now rewrite A.
    - intros k _. apply co_task, C.
    - intros t t' H1 H2. rewrite (co_task _ _ _ C) in H2. assert (t' = t) as -> by congruence. auto.
    - rewrite (co_task _ _ _ C). auto.
  Qed.

  Definition ev_of (l : qlabel) : fleet_event Schedule Zone :=
    match l with QRun i _ p => FRun i p | QAbort i e => FAbort i e | QCall o => FCall o end.
  Lemma run_labels now : forall ls w, Forall (fun l => match l with QRun _ n _ => n = now | QAbort _ _ => True | QCall _ => False end) ls ->
    exists w', frun w (map (fun l => (now, ev_of l)) ls) = Some w' /\ calls_only w w' /\ n_db (fl_net w') = qrun ident (n_db (fl_net w)) ls.
  Proof.
    induction ls as [|l ls IH]; intros w Hl.
    - exists w. split; [reflexivity|]. split; [constructor; reflexivity|reflexivity].
    - pose proof (Forall_inv Hl) as H1. pose proof (Forall_inv_tail Hl) as H2. cbn beta in H1.
      destruct (IH (net now (NDb l) w) H2) as [w' [R [[C1 C2 C3 C4 C5 C6] E]]]. exists w'.
      destruct (ndb_net ident (fl_net w) l) as [N1 N2]. split.
      + cbn [map fleet_run]. destruct l as [o|i n p|i e]; [destruct H1| |]; cbn [ev_of fleet_step]; [subst n|]; exact R.
      + split; [constructor; try assumption; cbn [on_net fl_net] in C6; congruence|]. rewrite E. cbn [on_net fl_net qrun]. rewrite N1. reflexivity.
  Qed.

  Definition settled (w : fleet) : Prop := all_finished (n_db (fl_net w)).
  Lemma reached_db w : sound_table t0 -> reached w -> qinv (n_db (fl_net w)) /\ tidy (n_db (fl_net w)).
  Proof.
    intros Hs [es H]. destruct (reach es w H) as [K _]. rewrite (k_net _ _ _ _ _ _ K).
    destruct (projection ident (n_found t0) (net_labels (fl_log w))) as [qs [-> _]]. change (n_db (n_found t0)) with (opened t0).
    pose proof (inv_opened t0 Hs) as Hi. split; [apply PgConcProofs.run_inv, Hi|]. apply tidy_run; [exact Hi|apply tidy_opened].
  Qed.

  Notation only_task g s es := (Forall (fun x => of_task g s (snd x)) es).
  Notation all_at now es := (Forall (fun x : time * fleet_event Schedule Zone => fst x = now) es).

  (** All calls can be carried out. *)
  Lemma settle now g w : sound_table t0 -> reached w ->
    exists es' w', frun w es' = Some w' /\ only_task g (n_db (fl_net w)) es' /\ all_at now es' /\ calls_only w w' /\ settled w'
      /\ exists qs, n_db (fl_net w') = qrun ident (n_db (fl_net w)) qs.
  Proof.
    intros Hs Hr. destruct (reached_db w Hs Hr) as [Hi Ht].
    destruct (can_settle ident now _ Hi Ht) as [gone [ls [G1 [G2 G3]]]].
    destruct (run_labels now (map (fun i => QAbort i BadState) gone ++ ls) w) as [w' [R [C E]]].
    { apply Forall_app. split; [apply Forall_map, Forall_forall; auto|]. eapply Forall_impl; [|exact G2]. intros l [i ->]. reflexivity. }
    eexists _, w'. split; [exact R|]. split.
    - rewrite Forall_map. cbn [snd]. apply Forall_app. split.
      + apply Forall_map, Forall_forall. intros i Hi'. cbn. destruct (G1 i Hi'). auto.
      + eapply Forall_impl; [|exact G2]. intros l [i ->]. exact Logic.I.
    - split; [rewrite Forall_map; apply Forall_forall; reflexivity|]. split; [exact C|]. split; [unfold settled; rewrite E; exact G3|eauto].
  Qed.

  (** Nothing is torn that stands at its start or has returned. *)
  Lemma fresh_untorn s i : (forall k c, nth_error (q_calls s) k = Some c -> qc_pc c = QStart \/ exists r, qc_pc c = QDone r) -> ~ torn s i.
  Proof. intros H [ps [n [tk [rs [Hc _]]]]]. destruct (H i _ Hc) as [E|[r E]]; discriminate. Qed.
  (** When nothing is torn, nothing needs to be ended. *)
  Lemma calm_own g s s' (es : list (time * fleet_event Schedule Zone)) : (forall i, ~ torn s i) -> only_task g s es -> only_task g s' es.
  Proof.
    intros Hn. apply Forall_impl. intros [now ev]. cbn [snd]. destruct ev; cbn [of_task]; auto. intros [_ [H _]]. exfalso. exact (Hn _ H).
  Qed.
  Lemma settled_untorn w i : settled w -> ~ torn (n_db (fl_net w)) i.
  Proof. intro H. apply fresh_untorn. intros k c Hc. right. eapply H; exact Hc. Qed.

  (** * Steps of a task *)
  Lemma do_task now g q i (w : fleet) s t t' ev : NoDup (fl_places w) -> nth_error (fl_places w) g = Some (q, i) ->
    nth_error (fl_nodes w) q = Some s -> nth_error (pr_tasks s) i = Some t ->
    app_step utc upcoming show now s ev = put_task i (Some t') s ->
    exists w', onn now q ev w = Some w' /\ aside g w w' /\ task_of g w' = Some t' /\ fl_net w' = fl_net w /\ fl_asks w' = fl_asks w.
  Proof.
    intros Hn Hg Hq Ht Hs. cbn [put_task] in Hs. unfold on_node. rewrite Hq, Hs. eexists. split; [reflexivity|].
    set (s' := mk_process (pr_rexecutors s) (set_nth i t' (pr_tasks s)) (pr_cell s)) in *.
    assert (Hi : nth_error (pr_tasks s') i = Some t') by exact (nth_set_same _ _ _ _ Ht).
    assert (Hg' : forall log, task_of g (mk_fleet (fl_net w) (fl_homes w) (set_nth q s' (fl_nodes w)) (fl_places w) (fl_streams w) (fl_asks w) log) = Some t').
    { intro log. unfold task_of. cbn [fl_places fl_nodes]. rewrite Hg, (nth_set_same _ _ _ _ Hq). exact Hi. }
    split; [|split; [apply Hg'|auto]].
    assert (Hg0 : task_of g w = Some t) by (unfold task_of; rewrite Hg, Hq; exact Ht).
    constructor; try reflexivity.
    - intro q'. cbn [fl_nodes]. destruct (Nat.eq_dec q q') as [<-|Hne].
      + rewrite (nth_set_same _ _ _ _ Hq), Hq. reflexivity.
      + rewrite nth_set_nth_other by congruence. reflexivity.
    - intros k Hk. unfold task_of. cbn [fl_places fl_nodes]. destruct (nth_error (fl_places w) k) as [[q1 i1]|] eqn:Ek; [|reflexivity].
      destruct (Nat.eq_dec q1 q) as [->|Hne].
      + rewrite (nth_set_same _ _ _ _ Hq), Hq. cbn [pr_tasks s']. apply nth_set_nth_other. intros <-. apply Hk.
        apply (proj1 (NoDup_nth_error (fl_places w)) Hn); [eapply nth_lt; exact Ek|congruence].
      + rewrite nth_set_nth_other by congruence. reflexivity.
    - intros t1 t1' H1 H1'. rewrite Hg' in H1'. assert (t1 = t) as -> by congruence. assert (t1' = t') as -> by congruence.
      eapply (step_keeps utc upcoming show now s ev s' (ROk tt) i t t'); [exact Hs|exact Ht|exact Hi].
    - intros _. rewrite Hg'. discriminate.
  Qed.
  Lemma task_where g (w : fleet) (t : tsk) : task_of g w = Some t -> exists q i s, nth_error (fl_places w) g = Some (q, i) /\ nth_error (fl_nodes w) q = Some s /\ nth_error (pr_tasks s) i = Some t.
  Proof.
    unfold task_of. destruct (nth_error (fl_places w) g) as [[q i]|] eqn:E; [|discriminate]. destruct (nth_error (fl_nodes w) q) as [s|] eqn:E2; [|discriminate].
    intro H. exists q, i, s. split; [reflexivity|]. split; [exact E2|exact H].
  Qed.
  Lemma do_worker now g w t e wk ev wk' : reached w -> task_of g w = Some t -> ta_body t = BWorker e wk ->
    wstep e wk ev = Some wk' -> ev <> WCancel ->
    exists w', on_worker utc upcoming show now g ev w = Some w' /\ aside g w w'
      /\ task_of g w' = Some (mk_task (ta_backend t) (ta_token t) (BWorker e wk')) /\ fl_net w' = fl_net w /\ fl_asks w' = fl_asks w.
  Proof.
    intros Hr Ht Eb Hs Hc. destruct (task_where g w t Ht) as [q [i [s [Hg [Hq Hi]]]]]. unfold on_worker. rewrite Hg.
    eapply do_task; [apply reached_nodup, Hr|exact Hg|exact Hq|exact Hi|]. cbn [app_step]. rewrite Hi. unfold worker_task_step. rewrite Eb, Hs.
    destruct ev; try reflexivity. congruence.
  Qed.
  (** The token of task [g]. *)
  Definition stopped (g : nat) (w : fleet) : bool :=
    match nth_error (fl_places w) g with
    | Some (q, i) => match nth_error (fl_nodes w) q with
                     | Some s => match nth_error (pr_tasks s) i with Some t => token_cancelled t s | None => false end
                     | None => false end
    | None => false end.
  Lemma aside_stopped g w w' : aside g w w' -> task_of g w <> None -> stopped g w' = stopped g w.
  Proof.
    intros [A1 A2 A3 A4 A5 A6 A7] H0. specialize (A7 H0). unfold stopped, task_of in *. rewrite A1 in *.
    destruct (nth_error (fl_places w) g) as [[q i]|]; [|reflexivity]. specialize (A4 q).
    destruct (nth_error (fl_nodes w) q) as [s|], (nth_error (fl_nodes w') q) as [s'|]; cbn in A4; try congruence.
    destruct (nth_error (pr_tasks s) i) as [t|]; [|congruence]. destruct (nth_error (pr_tasks s') i) as [t'|]; [|congruence].
    destruct (A6 t t' eq_refl eq_refl) as [E _]. unfold token_cancelled. rewrite E. injection A4 as -> _. reflexivity.
  Qed.
  Lemma do_tick now g w t ev t' : reached w -> task_of g w = Some t ->
    tick_task_step utc upcoming (stopped g w) t ev = Some t' ->
    exists w', on_tick utc upcoming show now g ev w = Some w' /\ aside g w w' /\ task_of g w' = Some t' /\ fl_net w' = fl_net w /\ fl_asks w' = fl_asks w.
  Proof.
    intros Hr Ht Hs. destruct (task_where g w t Ht) as [q [i [s [Hg [Hq Hi]]]]]. unfold on_tick. rewrite Hg.
    eapply do_task; [apply reached_nodup, Hr|exact Hg|exact Hq|exact Hi|]. cbn [app_step]. rewrite Hi.
    unfold stopped in Hs. rewrite Hg, Hq, Hi in Hs. rewrite Hs. reflexivity.
  Qed.

  Lemma run1 now ev (w w' : fleet) : fstep now w ev = Some w' -> frun w [(now, ev)] = Some w'.
  Proof. intro H. cbn [fleet_run]. rewrite H. reflexivity. Qed.
  Lemma run2 (w w1 w2 : fleet) es1 es2 : frun w es1 = Some w1 -> frun w1 es2 = Some w2 -> frun w (es1 ++ es2) = Some w2.
  Proof. intros H1 H2. rewrite (frun_app utc upcoming show hash ident), H1. exact H2. Qed.

  (** A settled fleet, with only task [g] at work, comes to another settled state. *)
  Record goes (now : time) (g : nat) (w : fleet) (es : list (time * fleet_event Schedule Zone)) (w' : fleet) : Prop := mk_goes {
    go_run : frun w es = Some w';
    go_own : only_task g (n_db (fl_net w)) es;
    go_at : all_at now es;
    go_aside : aside g w w';
    go_settled : settled w -> settled w';
    go_net : n_streams (fl_net w') = n_streams (fl_net w)
  }.
  Lemma goes_refl now g w : goes now g w [] w.
  Proof. constructor; [reflexivity|constructor|constructor|apply aside_refl|auto|reflexivity]. Qed.
  Lemma goes_step now g w ev w' : fstep now w ev = Some w' -> of_task g (n_db (fl_net w)) ev -> aside g w w' -> fl_net w' = fl_net w -> goes now g w [(now, ev)] w'.
  Proof.
    intros H Ho Ha En. constructor; [apply run1, H|repeat constructor; exact Ho|repeat constructor|exact Ha| |now rewrite En]. unfold settled. rewrite En. auto.
  Qed.
  Lemma goes_trans now g w1 es1 w2 es2 w3 : settled w1 \/ settled w2 -> goes now g w1 es1 w2 -> goes now g w2 es2 w3 -> goes now g w1 (es1 ++ es2) w3.
  Proof.
    intros Hs [A1 A2 A3 A4 A5 A6] [B1 B2 B3 B4 B5 B6]. assert (S2 : settled w2) by (destruct Hs; auto). constructor.
    - eapply run2; eassumption.
    - apply Forall_app. split; [exact A2|]. eapply calm_own; [intro i; apply settled_untorn, S2|exact B2].
    - apply Forall_app. auto.
    - eapply aside_trans; eassumption.
    - auto.
    - congruence.
  Qed.
  Lemma goes_settle now g w : sound_table t0 -> reached w -> exists es' w', goes now g w es' w' /\ settled w' /\ calls_only w w'.
  Proof.
    intros Hs Hr. destruct (settle now g w Hs Hr) as [es' [w' [R [O [T [C [S _]]]]]]]. exists es', w'. split; [|auto].
    constructor; auto; [apply co_aside, C|apply (co_net _ _ C)].
  Qed.

  (** * Workers *)
  (** A working worker with something to do can get on with it. *)
  Lemma get_on now w g t e wk : sound_table t0 -> reached w -> settled w -> task_of g w = Some t -> ta_body t = BWorker e wk ->
    w_life wk = Working -> w_flights wk <> [] ->
    exists es' w' wk', goes now g w es' w'
      /\ task_of g w' = Some (mk_task (ta_backend t) (ta_token t) (BWorker e wk'))
      /\ (w_life wk' = Crashed_worker
          \/ (w_life wk' = Working /\ w_open wk' = w_open wk /\ w_cancelled wk' = w_cancelled wk /\ w_transit wk' = w_transit wk /\ (load wk' < load wk)%nat)).
  Proof.
    intros Hsd Hr Hset Ht Eb El Hf. destruct (w_flights wk) as [|[n ph] l] eqn:Ef; [contradiction|]. clear Hf.
    assert (Fn : flight_of n (w_flights wk) = Some ph) by (rewrite Ef; cbn; now rewrite Nat.eqb_refl). clear Ef l.
    assert (Go : forall ev wk' fev, wstep e wk ev = Some wk' -> ev <> WCancel -> of_task g (n_db (fl_net w)) fev ->
              (fstep now w fev = on_worker utc upcoming show now g ev w) ->
              (w_life wk' = Crashed_worker
               \/ (w_life wk' = Working /\ w_open wk' = w_open wk /\ w_cancelled wk' = w_cancelled wk /\ w_transit wk' = w_transit wk /\ (load wk' < load wk)%nat)) ->
              exists es' w' wk', goes now g w es' w'
                /\ task_of g w' = Some (mk_task (ta_backend t) (ta_token t) (BWorker e wk'))
                /\ (w_life wk' = Crashed_worker
                    \/ (w_life wk' = Working /\ w_open wk' = w_open wk /\ w_cancelled wk' = w_cancelled wk /\ w_transit wk' = w_transit wk /\ (load wk' < load wk)%nat))).
    { intros ev wk' fev Hs Hc Ho Hv Hd. destruct (do_worker now g w t e wk ev wk' Hr Ht Eb Hs Hc) as [w' [A1 [A2 [A3 [A4 A5]]]]].
      exists [(now, fev)], w', wk'. split; [apply goes_step; [rewrite Hv; exact A1|exact Ho|exact A2|exact A4]|]. auto. }
    assert (Prog : forall ph' obs, (match ph' with Some q => weight (n, q) | None => 0 end < weight (n, ph))%nat ->
              w_life (progress n ph' obs wk) = Working /\ w_open (progress n ph' obs wk) = w_open wk /\ w_cancelled (progress n ph' obs wk) = w_cancelled wk
              /\ w_transit (progress n ph' obs wk) = w_transit wk /\ (load (progress n ph' obs wk) < load wk)%nat).
    { intros ph' obs Hw. cbn [progress w_life w_open w_cancelled w_transit]. do 4 (split; [first [exact El|reflexivity]|]).
      unfold load. cbn [progress w_flights]. eapply (load_set utc upcoming); eassumption. }
    destruct ph as [[j|err]|x|op].
    - destruct (begin_job (xe_codec e) (xe_fns e) j) as [x| |] eqn:Ebj.
      + eapply (Go (WStart n) _ (FStart g n)); [unfold worker_step; rewrite El, Fn, Ebj; reflexivity|discriminate|reflexivity|reflexivity|].
        right. apply Prog. cbn. lia.
      + eapply (Go (WStart n) _ (FStart g n)); [unfold worker_step; rewrite El, Fn, Ebj; reflexivity|discriminate|reflexivity|reflexivity|].
        right. apply Prog. cbn. lia.
      + eapply (Go (WStart n) _ (FStart g n)); [unfold worker_step; rewrite El, Fn, Ebj; reflexivity|discriminate|reflexivity|reflexivity|].
        left. reflexivity.
    - eapply (Go (WStart n) _ (FStart g n)); [unfold worker_step; rewrite El, Fn; reflexivity|discriminate|reflexivity|reflexivity|].
      right. apply Prog. cbn. lia.
    - (* the execution ends well *)
      set (wk1 := progress n (Some (FReporting (OpComplete (x_id x)))) [Reported n (OpComplete (x_id x))] (progress n (Some (FExecuting x)) [Outcome n ODone] wk)).
      assert (Hs : wstep e wk (WEnd n now now ODone) = Some wk1) by (unfold worker_step; rewrite El, Fn; reflexivity).
      destruct (do_worker now g w t e wk _ wk1 Hr Ht Eb Hs ltac:(discriminate)) as [w1 [A1 [A2 [A3 [A4 A5]]]]].
      assert (G : set_flight n (Some (FReporting (OpComplete (x_id x)))) (set_flight n (Some (FExecuting x)) (w_flights wk))
                        = set_flight n (Some (FReporting (OpComplete (x_id x)))) (w_flights wk)).
      { generalize (w_flights wk). induction l as [|[k q] l IH]; [reflexivity|]. cbn [set_flight]. destruct (Nat.eqb k n) eqn:E.
        - cbn [set_flight]. now rewrite E.
        - cbn [set_flight]. now rewrite E, IH. }
      assert (Hf1 : exists op, flight_of n (w_flights wk1) = Some (FReporting op)).
      { exists (OpComplete (x_id x)). unfold wk1. cbn [progress w_flights]. rewrite G. revert Fn. generalize (w_flights wk).
        induction l as [|[k q] l IH]; cbn [flight_of set_flight]; [discriminate|]. destruct (Nat.eqb k n) eqn:E; cbn [flight_of].
        - now rewrite E.
        - rewrite E. exact IH. }
      destruct Hf1 as [op Hf1].
      assert (V : fstep now w (FEnd g n now now ODone) = Some (fleet_ask ident now g n op w1)).
      { cbn [fleet_step]. unfold fleet_end. rewrite A1, A3. cbn [ta_body]. rewrite Hf1. reflexivity. }
      set (w2 := fleet_ask ident now g n op w1) in *.
      assert (Hr2 : reached w2) by (eapply reached_more; [exact Hr|apply run1; exact V]).
      assert (Ha2 : aside g w w2).
      { eapply aside_trans; [exact A2|]. constructor; auto; try congruence. intros u u' U1 U2. change (task_of g w2) with (task_of g w1) in U2.
        assert (u' = u) as -> by congruence. auto. }
      destruct (goes_settle now g w2 Hsd Hr2) as [es3 [w3 [G3 [S3 C3]]]].
      exists ([(now, FEnd g n now now ODone)] ++ es3), w3, wk1.
      assert (Hnt : forall i, ~ torn (n_db (fl_net w2)) i).
      { intro i. apply fresh_untorn. intros k c Hc. unfold w2, fleet_ask in Hc. cbn [fl_net on_net] in Hc.
        rewrite (proj1 (ndb_net ident (fl_net w1) (QCall op))), A4 in Hc. cbn [qstep fst q_calls] in Hc. apply nth_snoc in Hc.
        destruct Hc as [Hc| ->]; [right; eapply Hset; exact Hc|left; reflexivity]. }
      split.
      + constructor.
        * eapply run2; [apply run1; exact V|exact (go_run _ _ _ _ _ G3)].
        * apply Forall_app. split; [repeat constructor|]. eapply calm_own; [exact Hnt|exact (go_own _ _ _ _ _ G3)].
        * apply Forall_app. split; [repeat constructor|exact (go_at _ _ _ _ _ G3)].
        * eapply aside_trans; [exact Ha2|exact (go_aside _ _ _ _ _ G3)].
        * intros _. exact S3.
        * rewrite (go_net _ _ _ _ _ G3). unfold w2, fleet_ask. cbn [fl_net on_net]. rewrite (proj2 (ndb_net ident (fl_net w1) (QCall op))), A4. reflexivity.
      + rewrite (co_task _ _ g C3). split; [exact A3|]. right. unfold wk1. cbn [progress w_life w_open w_cancelled w_transit]. do 4 (split; [first [exact El|reflexivity]|]).
        unfold load. cbn [progress w_flights]. rewrite G. eapply (load_set utc upcoming); [exact Fn|cbn; lia].
    - (* the report has been carried out, and is answered *)
      destruct Hr as [es H]. destruct (answer_thm utc upcoming show hash ident t0 es w g t e wk n op Hsd H Ht Eb Fn) as [a [pc [E1 [E2 E3]]]].
      destruct (Hset _ _ E2) as [r Er]. cbn [qc_pc] in Er. subst pc. destruct (E3 now) as [r' [w' [wk' [-> [V [Hs [T _]]]]]]].
      destruct (do_worker now g w t e wk _ _ (ex_intro _ es H) Ht Eb Hs ltac:(discriminate)) as [w1 [A1 [A2 [A3 [A4 A5]]]]].
      assert (V' : fstep now w (FAnswer g n) = Some w1).
      { destruct (report_thm utc upcoming show hash ident t0 es w g t e wk n op H Ht Eb Fn) as [a2 [pc2 [F1 [F2 F4]]]].
        rewrite E1 in F1. injection F1 as <-. cbn [fleet_step]. unfold fleet_answer. rewrite F4. rewrite E2 in F2. injection F2 as <-. exact A1. }
      exists [(now, FAnswer g n)], w1, wk'. split; [apply goes_step; [exact V'|reflexivity|exact A2|exact A4]|]. split; [exact A3|].
      unfold worker_step in Hs. rewrite El, Fn in Hs. destruct r'; injection Hs as <-; [right; apply Prog; cbn; lia..|left; reflexivity].
  Qed.

  Lemma get_idle now : sound_table t0 -> forall m w g t e wk, reached w -> settled w -> task_of g w = Some t -> ta_body t = BWorker e wk ->
    w_life wk = Working -> (load wk <= m)%nat ->
    exists es' w' wk', goes now g w es' w'
      /\ task_of g w' = Some (mk_task (ta_backend t) (ta_token t) (BWorker e wk'))
      /\ (w_life wk' = Crashed_worker
          \/ (w_life wk' = Working /\ w_open wk' = w_open wk /\ w_cancelled wk' = w_cancelled wk /\ w_transit wk' = w_transit wk /\ w_flights wk' = [])).
  Proof.
    intro Hsd. induction m as [|m IH]; intros w g t e wk Hr Hset Ht Eb El Hm.
    - exists [], w, wk. split; [apply goes_refl|]. split; [rewrite Ht; destruct t; cbn in *; congruence|]. right. do 4 (split; [first [exact El|reflexivity]|]).
      unfold load in Hm. destruct (w_flights wk) as [|x l]; [reflexivity|]. cbn [map] in Hm. change (list_sum (?a :: ?b)) with (a + list_sum b)%nat in Hm.
      pose proof (weight_pos utc upcoming x). lia.
    - destruct (w_flights wk) as [|x l] eqn:Ef.
      + exists [], w, wk. split; [apply goes_refl|]. split; [rewrite Ht; destruct t; cbn in *; congruence|]. right. auto 10.
      + destruct (get_on now w g t e wk Hsd Hr Hset Ht Eb El ltac:(congruence)) as [es1 [w1 [wk1 [G1 [N1 D1]]]]].
        destruct D1 as [D1|[L1 [Op1 [C1 [Tr1 Ld]]]]].
        * exists es1, w1, wk1. auto 10.
        * destruct (IH w1 g _ e wk1 (reached_more _ _ _ Hr (go_run _ _ _ _ _ G1)) (go_settled _ _ _ _ _ G1 Hset) N1 eq_refl L1 ltac:(lia)) as [es2 [w2 [wk2 [G2 [N2 D2]]]]].
          exists (es1 ++ es2), w2, wk2. split; [eapply goes_trans; [left; exact Hset|exact G1|exact G2]|]. split; [exact N2|].
          rewrite Op1, C1, Tr1 in D2. exact D2.
  Qed.

  Definition ends (now : time) (w : fleet) (g : nat) : Prop := exists es' w' t', goes now g w es' w' /\ settled w' /\ task_of g w' = Some t' /\ (ended t' \/ died t').
  Lemma ends_now now w g t : settled w -> task_of g w = Some t -> ended t \/ died t -> ends now w g.
  Proof. intros Hs Ht D. exists [], w, t. split; [apply goes_refl|]. auto. Qed.
  Lemma ends_after now w es1 w1 g : settled w \/ settled w1 -> goes now g w es1 w1 -> ends now w1 g -> ends now w g.
  Proof.
    intros Hs G [es [w2 [t2 [G2 [S2 [N D]]]]]]. exists (es1 ++ es), w2, t2. split; [eapply goes_trans; eassumption|]. auto.
  Qed.

  (** A worker that has been told to stop can come to its end. *)
  Lemma worker_stops now w g t e wk : sound_table t0 -> reached w -> settled w -> task_of g w = Some t -> ta_body t = BWorker e wk ->
    w_cancelled wk = true \/ w_life wk <> Working -> (forall l, ex_max_concurrency (xe_consts e) = Some l -> 0 <= l) -> ends now w g.
  Proof.
    intros Hsd Hr Hset Ht Eb Hc Hlim. destruct (w_life wk) eqn:El.
    2,3: eapply ends_now; [exact Hset|exact Ht|]; unfold ended, died; rewrite Eb; auto.
    destruct Hc as [Hc|Hc]; [|congruence].
    destruct (get_idle now Hsd (load wk) w g t e wk Hr Hset Ht Eb El (le_n _)) as [es1 [w1 [wk1 [G1 [N1 D1]]]]].
    pose proof (go_settled _ _ _ _ _ G1 Hset) as S1. pose proof (reached_more _ _ _ Hr (go_run _ _ _ _ _ G1)) as R1.
    eapply ends_after; [left; exact Hset|exact G1|].
    destruct D1 as [D1|[L1 [Op1 [C1 [_ F1]]]]]; [eapply ends_now; [exact S1|exact N1|right; exact D1]|].
    assert (Hb : below_limit (ex_max_concurrency (xe_consts e)) 0 = true).
    { unfold below_limit. destruct (ex_max_concurrency (xe_consts e)) as [l|]; [|reflexivity]. specialize (Hlim l eq_refl).
      destruct (Z.eqb_spec l 0); [reflexivity|]. cbn [orb]. apply Z.ltb_lt. cbn. lia. }
    assert (Fin : forall w1 wk1, reached w1 -> settled w1 -> task_of g w1 = Some (mk_task (ta_backend t) (ta_token t) (BWorker e wk1)) ->
              w_life wk1 = Working -> w_flights wk1 = [] -> w_open wk1 = false -> ends now w1 g).
    { intros w0 wk0 R0 S0 N0 L0 F0 Op0.
      destruct (do_worker now g w0 _ e wk0 WFinish (mk_worker [] (w_next wk0) (w_cancelled wk0) false None Ended (w_seen wk0)) R0 N0 eq_refl) as [w' [B1 [B2 [B3 [B4 _]]]]];
        [unfold worker_step; rewrite L0, F0, Op0; reflexivity|discriminate|].
      assert (G0 : goes now g w0 [(now, FFinish g)] w') by (apply goes_step; [exact B1|reflexivity|exact B2|exact B4]).
      eapply ends_after; [left; exact S0|exact G0|]. eapply ends_now; [exact (go_settled _ _ _ _ _ G0 S0)|exact B3|left; reflexivity]. }
    destruct (w_open wk1) eqn:Eo.
    - destruct (do_worker now g w1 _ e wk1 WClose (mk_worker (w_flights wk1) (w_next wk1) (w_cancelled wk1) false None (w_life wk1) (w_seen wk1)) R1 N1 eq_refl) as [w2 [B1 [B2 [B3 [B4 _]]]]];
        [unfold worker_step; rewrite L1, Eo, C1, Hc, F1; cbn [length andb]; rewrite Hb; reflexivity|discriminate|].
      assert (G0 : goes now g w1 [(now, FClose g)] w2) by (apply goes_step; [exact B1|reflexivity|exact B2|exact B4]).
      eapply ends_after; [left; exact S1|exact G0|]. eapply Fin; [eapply reached_more; [exact R1|exact (go_run _ _ _ _ _ G0)]|exact (go_settled _ _ _ _ _ G0 S1)|exact B3|exact L1|exact F1|reflexivity].
    - eapply Fin; eauto.
  Qed.

  (** * Loops *)
  Lemma loop_stops now w g t up k : reached w -> settled w -> task_of g w = Some t -> ticker_of utc upcoming t = (Some up, Some k) ->
    stopped g w = true -> ends now w g.
  Proof.
    intros Hr Hset Ht Hk Hc.
    assert (Step : forall w t k ev k' fev, reached w -> settled w -> task_of g w = Some t -> ticker_of utc upcoming t = (Some up, Some k) -> stopped g w = true ->
              tick_step up k ev = Some k' -> (fstep now w fev = on_tick utc upcoming show now g ev w) -> of_task g (n_db (fl_net w)) fev ->
              (forall w', reached w' -> settled w' -> task_of g w' = Some (with_ticker k' t) -> stopped g w' = true -> ends now w' g) -> ends now w g).
    { intros w0 u k0 ev k0' fev R0 S0 N0 K0 C0 Hs V0 O0 Hnext.
      destruct (do_tick now g w0 u ev (with_ticker k0' u) R0 N0) as [w' [B1 [B2 [B3 [B4 _]]]]].
      { eapply (tick_with utc upcoming); [exact K0|exact Hs|left; exact C0]. }
      assert (G0 : goes now g w0 [(now, fev)] w') by (apply goes_step; [rewrite V0; exact B1|exact O0|exact B2|exact B4]).
      eapply ends_after; [left; exact S0|exact G0|]. apply Hnext; [eapply reached_more; [exact R0|exact (go_run _ _ _ _ _ G0)]|exact (go_settled _ _ _ _ _ G0 S0)|exact B3|].
      rewrite (aside_stopped g w0 w' B2) by congruence. exact C0. }
    assert (S1 : forall w t c f n u, reached w -> settled w -> task_of g w = Some t -> ticker_of utc upcoming t = (Some up, Some (mk_ticker (Sleeping n u) c f)) ->
              stopped g w = true -> ends now w g).
    { intros w0 v c f n u R0 S0 N0 K0 C0. eapply (Step w0 v _ Cancel _ (FLeave g)); [exact R0|exact S0|exact N0|exact K0|exact C0|reflexivity|reflexivity|reflexivity|].
      intros w' R' S' N' _. eapply ends_now; [exact S'|exact N'|]. eapply (with_ticker_end utc upcoming); [eapply (with_ticker_of utc upcoming); exact K0|]. auto. }
    assert (S2 : forall w t c f, reached w -> settled w -> task_of g w = Some t -> ticker_of utc upcoming t = (Some up, Some (mk_ticker Computing c f)) ->
              stopped g w = true -> ends now w g).
    { intros w0 v c f R0 S0 N0 K0 C0. destruct (up c) as [n|] eqn:E.
      - eapply (Step w0 v _ (Compute c c) _ (FCompute g c c)); [exact R0|exact S0|exact N0|exact K0|exact C0| |reflexivity|reflexivity|].
        + unfold tick_step. cbn [tk_phase tk_clock tk_fired]. rewrite Z.leb_refl, E. reflexivity.
        + intros w' R' S' N' C'. eapply S1; [exact R'|exact S'|exact N'|eapply (with_ticker_of utc upcoming); exact K0|exact C'].
      - eapply (Step w0 v _ (Compute c c) _ (FCompute g c c)); [exact R0|exact S0|exact N0|exact K0|exact C0| |reflexivity|reflexivity|].
        + unfold tick_step. cbn [tk_phase tk_clock tk_fired]. rewrite Z.leb_refl, E. reflexivity.
        + intros w' R' S' N' C'. eapply ends_now; [exact S'|exact N'|]. eapply (with_ticker_end utc upcoming); [eapply (with_ticker_of utc upcoming); exact K0|]. auto. }
    assert (S3 : forall w t u c f, reached w -> settled w -> task_of g w = Some t -> ticker_of utc upcoming t = (Some up, Some (mk_ticker (Resting u) c f)) ->
              stopped g w = true -> ends now w g).
    { intros w0 v u c f R0 S0 N0 K0 C0. eapply (Step w0 v _ (Rested (Z.max c u)) _ (FRested g (Z.max c u))); [exact R0|exact S0|exact N0|exact K0|exact C0| |reflexivity|reflexivity|].
      - unfold tick_step. cbn [tk_phase tk_clock tk_fired].
        replace (c <=? Z.max c u) with true by (symmetry; apply Z.leb_le; lia).
        replace (u <=? Z.max c u) with true by (symmetry; apply Z.leb_le; lia). reflexivity.
      - intros w' R' S' N' C'. eapply S2; [exact R'|exact S'|exact N'|eapply (with_ticker_of utc upcoming); exact K0|exact C']. }
    destruct k as [[|n u|n|u| |] c f]; eauto.
    - (* its calls have returned: it comes back from its action *)
      set (turn := length (firings (ta_body t))).
      assert (Hd : forallb answered (answers g turn w) = true).
      { destruct Hr as [es H]. pose proof (turn_asks utc upcoming show hash ident t0 es w g t turn H Ht) as E. unfold answers. apply forallb_forall.
        intros r Hin. apply in_map_iff in Hin. destruct Hin as [a [<- Ha]].
        apply (in_map (fun a => option_map qc_op (nth_error (q_calls (n_db (fl_net w))) (ak_call a)))) in Ha. rewrite E in Ha. apply in_map_iff in Ha.
        destruct Ha as [y [Ey _]]. destruct (nth_error (q_calls (n_db (fl_net w))) (ak_call a)) as [x|] eqn:Ex; [|discriminate].
        destruct (Hset _ _ Ex) as [r Er]. cbn. rewrite Er. reflexivity. }
      destruct (existsb panics (answers g turn w)) eqn:Ep.
      + eapply (Step w t _ (Acted c true) _ (FActed g c)); [exact Hr|exact Hset|exact Ht|exact Hk|exact Hc| | |reflexivity|].
        * unfold tick_step. cbn [tk_phase tk_clock tk_fired]. rewrite Z.leb_refl. reflexivity.
        * cbn [fleet_step]. unfold fleet_acted. rewrite Ht. fold turn. cbn zeta. rewrite Ep. reflexivity.
        * intros w' R' S' N' C'. eapply ends_now; [exact S'|exact N'|]. eapply (with_ticker_end utc upcoming); [eapply (with_ticker_of utc upcoming); exact Hk|]. auto.
      + assert (V : fstep now w (FActed g c) = on_tick utc upcoming show now g (Acted c false) w).
        { cbn [fleet_step]. unfold fleet_acted. rewrite Ht. fold turn. cbn zeta. rewrite Ep, Hd. reflexivity. }
        destruct (0 <? dt_diff n c) eqn:Ed.
        * eapply (Step w t _ (Acted c false) _ (FActed g c)); [exact Hr|exact Hset|exact Ht|exact Hk|exact Hc| |exact V|reflexivity|].
          -- unfold tick_step. cbn [tk_phase tk_clock tk_fired]. rewrite Z.leb_refl, Ed. reflexivity.
          -- intros w' R' S' N' C'. eapply S3; [exact R'|exact S'|exact N'|eapply (with_ticker_of utc upcoming); exact Hk|exact C'].
        * eapply (Step w t _ (Acted c false) _ (FActed g c)); [exact Hr|exact Hset|exact Ht|exact Hk|exact Hc| |exact V|reflexivity|].
          -- unfold tick_step. cbn [tk_phase tk_clock tk_fired]. rewrite Z.leb_refl, Ed. reflexivity.
          -- intros w' R' S' N' C'. eapply S2; [exact R'|exact S'|exact N'|eapply (with_ticker_of utc upcoming); exact Hk|exact C'].
    - eapply ends_now; [exact Hset|exact Ht|]. eapply (with_ticker_end utc upcoming); [exact Hk|]. auto.
    - eapply ends_now; [exact Hset|exact Ht|]. eapply (with_ticker_end utc upcoming); [exact Hk|]. auto.
  Qed.

  (** * Any task that has been told to stop, and all of them *)
  Lemma shut_tokens es w g t q : frun (fleet_init t0) es = Some w -> task_of g w = Some t -> nth_error (connected es) (ta_backend t) = Some q ->
    (stopped g w = true <-> shut (ta_token t) (program_of q es))
    /\ match ta_body t with BWorker _ wk => w_life wk = Working -> shut (ta_token t) (program_of q es) -> w_cancelled wk = true | _ => True end.
  Proof.
    intros H Ht Hq. destruct (parts_thm utc upcoming show hash ident t0 es w H) as [_ [_ [_ [P4 [P5 _]]]]].
    destruct (task_where g w t Ht) as [q' [i [s [Hg [Hs Hi]]]]].
    assert (q' = q) as -> by (pose proof (P5 q' s t Hs (nth_error_In _ _ Hi)); congruence).
    destruct (P4 q s Hs) as [pes [rs [Hr [_ Hn]]]].
    assert (Sh : shut (ta_token t) (program_of q es) <-> shut (ta_token t) pes).
    { rewrite <- Hn. unfold shut, shuts, not_of_tasks. split; intros [now [ev [H1 H2]]]; exists now, ev; (split; [|exact H2]).
      - apply filter_In in H1. exact (proj1 H1).
      - apply filter_In. split; [exact H1|]. destruct H2 as [-> | ->]; reflexivity. }
    split.
    - unfold stopped. rewrite Hg, Hs, Hi. destruct (AppProofs.run_inv utc upcoming show pes s rs Hr) as [Hm _ Hb Hc _ _ _].
      specialize (Hb t (nth_error_In _ _ Hi)). rewrite <- Hm, nth_error_map in Hb. unfold token_cancelled.
      destruct (nth_error (pr_rexecutors s) (ta_token t)) as [x|] eqn:E; [|discriminate]. rewrite (Hc _ _ E). symmetry. exact Sh.
    - pose proof (C79_told_exactly _ _ utc upcoming show pes s rs i t Hr Hi) as K. destruct (ta_body t); auto. intros L S. apply (K L). apply Sh, S.
  Qed.

  Lemma told_ends now w g t : sound_table t0 -> reached w -> settled w -> task_of g w = Some t -> stopped g w = true ->
    (forall e wk, ta_body t = BWorker e wk -> w_life wk = Working -> w_cancelled wk = true) -> limits_ok t -> ends now w g.
  Proof.
    intros Hsd Hr Hset Ht Hc Hw Hlim. destruct (ta_body t) as [e wk|e sc z d k|sc cfg k] eqn:Eb.
    - eapply worker_stops; [exact Hsd|exact Hr|exact Hset|exact Ht|exact Eb| |].
      + destruct (w_life wk) eqn:El; [left; exact (Hw e wk eq_refl El)|right; discriminate..].
      + intros l El. apply (Hlim e l); [unfold purpose; rewrite Eb; reflexivity|exact El].
    - eapply loop_stops; [exact Hr|exact Hset|exact Ht|unfold ticker_of; rewrite Eb; reflexivity|exact Hc].
    - eapply loop_stops; [exact Hr|exact Hset|exact Ht|unfold ticker_of; rewrite Eb; reflexivity|exact Hc].
  Qed.
  Definition told (w : fleet) (g : nat) (t : tsk) : Prop :=
    stopped g w = true /\ (forall e wk, ta_body t = BWorker e wk -> w_life wk = Working -> w_cancelled wk = true).
  Lemma shut_told es w g t q : frun (fleet_init t0) es = Some w -> task_of g w = Some t -> nth_error (connected es) (ta_backend t) = Some q ->
    shut (ta_token t) (program_of q es) -> told w g t.
  Proof.
    intros H Ht Hq Hs. destruct (shut_tokens es w g t q H Ht Hq) as [Hc Hw]. split; [apply Hc, Hs|]. intros e wk Eb El. rewrite Eb in Hw. auto.
  Qed.

  (** Whatever the calls are doing. *)
  Theorem task_stops now es w g t q : sound_table t0 -> frun (fleet_init t0) es = Some w -> task_of g w = Some t ->
    nth_error (connected es) (ta_backend t) = Some q -> shut (ta_token t) (program_of q es) -> limits_ok t -> ends now w g.
  Proof.
    intros Hsd H Ht Hq Hs Hlim. destruct (goes_settle now g w Hsd (ex_intro _ es H)) as [es1 [w1 [G [S C]]]].
    destruct (shut_told es w g t q H Ht Hq Hs) as [T1 T2].
    eapply ends_after; [right; exact S|exact G|]. eapply told_ends; [exact Hsd|eapply reached_more; [exact (ex_intro _ es H)|exact (go_run _ _ _ _ _ G)]|exact S|..].
    - rewrite (co_task _ _ g C). exact Ht.
    - rewrite (aside_stopped g w w1 (go_aside _ _ _ _ _ G)) by congruence. exact T1.
    - exact T2.
    - exact Hlim.
  Qed.

  (** Another task's steps do not change whether this one has been told. *)
  Lemma aside_stopped_other k g w w' : aside k w w' -> g <> k -> stopped g w' = stopped g w.
  Proof.
    intros [A1 A2 A3 A4 A5 A6 A7] Hne. specialize (A5 g Hne). unfold stopped, task_of in *. rewrite A1 in *.
    destruct (nth_error (fl_places w) g) as [[q i]|]; [|reflexivity]. specialize (A4 q).
    destruct (nth_error (fl_nodes w) q) as [s|], (nth_error (fl_nodes w') q) as [s'|]; cbn in A4; try congruence.
    rewrite A5. destruct (nth_error (pr_tasks s) i) as [t|]; [|reflexivity]. unfold token_cancelled. injection A4 as -> _. reflexivity.
  Qed.

  Theorem all_settled_end now : sound_table t0 -> forall n w, reached w -> settled w -> (forall g t, task_of g w = Some t -> limits_ok t) ->
    exists es' w', frun w es' = Some w' /\ (forall s, Forall (fun x => exists g, of_task g s (snd x)) es') /\ all_at now es' /\ fl_places w' = fl_places w
      /\ reached w' /\ settled w'
      /\ forall g t, task_of g w = Some t ->
         exists t', task_of g w' = Some t' /\ ta_token t' = ta_token t /\ purpose t' = purpose t
           /\ ((g < n)%nat -> told w g t -> ended t' \/ died t')
           /\ ((n <= g)%nat \/ stopped g w = false -> t' = t)
           /\ stopped g w' = stopped g w.
  Proof.
    intro Hsd. induction n as [|n IH]; intros w Hr Hset Hlim.
    - exists [], w. split; [reflexivity|]. split; [constructor|]. split; [constructor|]. split; [reflexivity|]. do 2 (split; [assumption|]).
      intros g t Ht. exists t. do 3 (split; [first [exact Ht|reflexivity]|]). split; [lia|auto].
    - destruct (IH w Hr Hset Hlim) as [es1 [w1 [R1 [B1 [T1 [P1 [Q1 [S1 D1]]]]]]]].
      destruct (task_of n w) as [t|] eqn:Et.
      2: { exists es1, w1. do 6 (split; [assumption|]). intros g t Ht. destruct (D1 g t Ht) as [t' [N [T [P [E [U V]]]]]].
           exists t'. do 3 (split; [assumption|]). assert (g <> n) by congruence. split; [intros; apply E; [lia|assumption]|].
           split; [|exact V]. intros [?|?]; apply U; [left; lia|auto]. }
      destruct (D1 n t Et) as [t' [N [T [P [E [U V]]]]]]. specialize (U (or_introl (le_n _))). subst t'.
      destruct (stopped n w) eqn:Hs.
      + assert (Dec : (forall e wk, ta_body t = BWorker e wk -> w_life wk = Working -> w_cancelled wk = true) \/ ~ told w n t).
        { unfold told. destruct (ta_body t) as [e wk| |] eqn:Eb; [|left; intros; discriminate..].
          destruct (w_life wk) eqn:El.
          - destruct (w_cancelled wk) eqn:Ec; [left; intros ? ? K; injection K as <- <-; auto|right]. intros [_ K]. specialize (K e wk eq_refl El). congruence.
          - left. intros ? ? K. injection K as <- <-. congruence.
          - left. intros ? ? K. injection K as <- <-. congruence. }
        destruct Dec as [Hw|Hno].
        * destruct (told_ends now w1 n t Hsd Q1 S1 N V Hw (Hlim n t Et)) as [es2 [w2 [t2 [G2 [S2 [N2 D2]]]]]].
          exists (es1 ++ es2), w2. split; [eapply run2; [exact R1|exact (go_run _ _ _ _ _ G2)]|].
          split.
          { intro s. apply Forall_app. split; [apply B1|]. eapply Forall_impl; [|exact (calm_own n (n_db (fl_net w1)) s es2 (fun i => settled_untorn w1 i S1) (go_own _ _ _ _ _ G2))].
            intros x Hx. exists n. exact Hx. }
          split; [apply Forall_app; split; [exact T1|exact (go_at _ _ _ _ _ G2)]|].
          pose proof (go_aside _ _ _ _ _ G2) as A. split; [rewrite (as_places _ _ _ A); exact P1|].
          split; [eapply reached_more; [exact Q1|exact (go_run _ _ _ _ _ G2)]|]. split; [exact S2|].
          intros g u Hu. destruct (Nat.eq_dec g n) as [->|Hne].
          -- assert (u = t) as -> by congruence. exists t2. split; [exact N2|]. destruct (as_task _ _ _ A t t2 N N2) as [K1 [_ K2]].
             do 2 (split; [assumption|]). split; [auto|]. split; [intros [?|?]; [lia|congruence]|].
             rewrite (aside_stopped n w1 w2 A) by congruence. congruence.
          -- destruct (D1 g u Hu) as [u' [N' [T' [P' [E' [U' V']]]]]]. exists u'. split; [rewrite (as_others _ _ _ A) by exact Hne; exact N'|].
             do 2 (split; [assumption|]). split; [intros; apply E'; [lia|assumption]|]. split; [intros [?|?]; apply U'; [left; lia|auto]|].
             rewrite (aside_stopped_other n g w1 w2 A Hne). exact V'.
        * exists es1, w1. do 6 (split; [assumption|]). intros g u Hu. destruct (D1 g u Hu) as [u' [N' [T' [P' [E' [U' V']]]]]].
          exists u'. do 3 (split; [assumption|]). split; [|split; [|exact V']].
          -- intros Hi Ho. destruct (Nat.eq_dec g n) as [->|Hne]; [assert (u = t) as -> by congruence; contradiction|apply E'; [lia|assumption]].
          -- intros [?|?]; apply U'; [left; lia|auto].
      + exists es1, w1. do 6 (split; [assumption|]). intros g u Hu. destruct (D1 g u Hu) as [u' [N' [T' [P' [E' [U' V']]]]]].
        exists u'. do 3 (split; [assumption|]). split; [|split; [|exact V']].
        * intros Hi Ho. destruct (Nat.eq_dec g n) as [->|Hne]; [destruct Ho; congruence|apply E'; [lia|assumption]].
        * intros [?|?]; apply U'; [left; lia|auto].
  Qed.

  Theorem all_end now es w : sound_table t0 -> frun (fleet_init t0) es = Some w -> (forall g t, task_of g w = Some t -> limits_ok t) ->
    exists es' w', frun w es' = Some w' /\ Forall (fun x => exists g, of_task g (n_db (fl_net w)) (snd x)) es' /\ all_at now es' /\ fl_places w' = fl_places w
      /\ settled w'
      /\ forall g t, task_of g w = Some t ->
         exists t', task_of g w' = Some t' /\ purpose t' = purpose t
           /\ forall q, nth_error (connected es) (ta_backend t) = Some q ->
              (shut (ta_token t) (program_of q es) -> ended t' \/ died t') /\ (~ shut (ta_token t) (program_of q es) -> t' = t).
  Proof.
    intros Hsd H Hlim. destruct (goes_settle now 0%nat w Hsd (ex_intro _ es H)) as [es1 [w1 [G [S C]]]].
    pose proof (reached_more _ _ _ (ex_intro _ es H) (go_run _ _ _ _ _ G)) as R1.
    destruct (all_settled_end now Hsd (length (fl_places w)) w1 R1 S) as [es2 [w2 [R2 [B2 [T2 [P2 [Q2 [S2 D2]]]]]]]].
    { intros g t Ht. rewrite (co_task _ _ g C) in Ht. eapply Hlim; exact Ht. }
    exists (es1 ++ es2), w2. split; [eapply run2; [exact (go_run _ _ _ _ _ G)|exact R2]|].
    split; [apply Forall_app; split; [eapply Forall_impl; [|exact (go_own _ _ _ _ _ G)]; intros x Hx; exists 0%nat; exact Hx|apply B2]|].
    split; [apply Forall_app; split; [exact (go_at _ _ _ _ _ G)|exact T2]|]. split; [rewrite P2; apply (co_places _ _ C)|]. split; [exact S2|].
    intros g t Ht. destruct (D2 g t) as [t' [N [T [P [E [U V]]]]]]; [rewrite (co_task _ _ g C); exact Ht|].
    exists t'. do 2 (split; [assumption|]). intros q Hq. destruct (shut_tokens es w g t q H Ht Hq) as [K1 K2].
    assert (Hst : stopped g w1 = stopped g w).
    { unfold stopped. rewrite (co_places _ _ C), (co_nodes _ _ C). reflexivity. }
    split.
    - intro Hs. apply E.
      + unfold task_of in Ht. apply nth_error_Some. destruct (nth_error (fl_places w) g); congruence.
      + destruct (shut_told es w g t q H Ht Hq Hs) as [X1 X2]. split; [congruence|exact X2].
    - intro Hn. apply U. right. rewrite Hst. destruct (stopped g w); [exfalso; apply Hn, K1; reflexivity|reflexivity].
  Qed.
End Ends.
