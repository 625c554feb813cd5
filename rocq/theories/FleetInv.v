(** The invariant of a fleet of processes that share a Postgres database. *)
From Coq Require Import Lia Permutation.
From Verif Require Import Base Chrono Types Query Memory MemSpec MemConc MemWake PgRow PgQuery Pg PgConc PgConcProofs PgListen PgListenProofs Codec Builder
  Runner RunnerSpec WorkerProofs Ticker Pruner ApiProofs App AppSpec AppProofs World WorldSpec WorldProofs WorldInv Fleet FleetSpec FleetLink.

Lemma callable_new o : new_call (LCall o) = [o] -> callable o = true.
Proof. destruct o; cbn; (reflexivity || discriminate). Qed.

Lemma map_change {A B} (f f' : A -> B) l g x : NoDup l -> nth_error l g = Some x ->
  (forall y, In y l -> y <> x -> f' y = f y) -> map f' l = set_nth g (f' x) (map f l).
Proof.
  intros Hn. revert g. induction l as [|a l IH]; intros g Hg H; [destruct g; discriminate|].
  pose proof (NoDup_cons_iff a l) as [HI _]. destruct (HI Hn) as [Hni Hn']. destruct g as [|g]; cbn in *.
  - injection Hg as ->. f_equal. apply map_ext_in. intros y Hy. apply H; [right; exact Hy|]. intros ->. exact (Hni Hy).
  - rewrite (IH Hn' g Hg) by (intros; apply H; auto). f_equal. apply H; [left; reflexivity|].
    intros ->. apply Hni. eapply nth_error_In; exact Hg.
Qed.

Lemma set_nth_twice {A} i (x y : A) l : set_nth i x (set_nth i y l) = set_nth i x l.
Proof. revert i. induction l as [|z l IH]; intros [|i]; cbn; auto. now rewrite IH. Qed.

Lemma nodup_filters (l : list (nat * nat)) : (forall q, NoDup (filter (fun x => Nat.eqb (fst x) q) l)) -> NoDup l.
Proof.
  induction l as [|x l IH]; intro H; constructor.
  - intro Hx. specialize (H (fst x)). cbn [filter] in H. rewrite Nat.eqb_refl in H. apply NoDup_cons_iff in H. destruct H as [H _].
    apply H. apply filter_In. split; [exact Hx|apply Nat.eqb_refl].
  - apply IH. intro q. specialize (H q). cbn [filter] in H. destruct (Nat.eqb (fst x) q); [|exact H]. apply NoDup_cons_iff in H. apply H.
Qed.

Section Inv.
  Context {Schedule Zone : Type}.
  Variable utc : Zone.
  Variable upcoming : Schedule -> Zone -> time -> option time.
  Variable show : Z -> string.
  Variable hash : forall e : executor, xe_data e -> Z.
  Variable ident : option Z -> option string -> list status -> Z.
  Variable t0 : tbl.
  Notation fleet := (fleet Schedule Zone).
  Notation step := (app_step utc upcoming show).
  Notation run := (app_run utc upcoming show).
  Notation tsk := (task Schedule Zone).
  Notation onn := (on_node utc upcoming show).
  Notation net := (on_net (Schedule := Schedule) (Zone := Zone) ident).
  Notation fstep := (fleet_step utc upcoming show hash ident).
  Notation frun := (fleet_run utc upcoming show hash ident).
  Notation tv := (tv (Schedule := Schedule) (Zone := Zone) hash).

  Definition seat (w : fleet) (x : nat * nat) : option tsk :=
    match nth_error (fl_nodes w) (fst x) with Some s => nth_error (pr_tasks s) (snd x) | None => None end.
  Definition vw (w : fleet) (x : nat * nat) : view := match seat w x with Some t => tv t | None => mk_view 0 None [] end.
  Definition VV (w : fleet) : list view := map (vw w) (fl_places w).

  Lemma task_of_seat g w : task_of g w = match nth_error (fl_places w) g with Some x => seat w x | None => None end.
  Proof. unfold task_of, seat. destruct (nth_error (fl_places w) g) as [[q i]|]; reflexivity. Qed.
  Lemma VV_nth g w t : task_of g w = Some t -> nth_error (VV w) g = Some (tv t).
  Proof.
    rewrite task_of_seat. intro H. unfold VV. destruct (nth_error (fl_places w) g) as [x|] eqn:E; [|discriminate].
    rewrite (map_nth_error _ _ _ E). unfold vw. rewrite H. reflexivity.
  Qed.

  Record core (w : fleet) : Prop := mk_core {
    k_net : fl_net w = nrun ident (n_found t0) (net_labels (fl_log w));
    k_node : forall q s, nth_error (fl_nodes w) q = Some s -> exists rs, run process_init (node_events q (fl_log w)) = Some (s, rs);
    k_none : forall q, (length (fl_nodes w) <= q)%nat -> node_events q (fl_log w) = [];
    k_homes : length (n_clients (fl_net w)) = length (fl_homes w) /\ forall c q, nth_error (fl_homes w) c = Some q -> (q < length (fl_nodes w))%nat;
    k_rx : forall q s r, nth_error (fl_nodes w) q = Some s -> In r (pr_rexecutors s) -> nth_error (fl_homes w) (rx_backend r) = Some q;
    k_task : forall q s t, nth_error (fl_nodes w) q = Some s -> In t (pr_tasks s) -> nth_error (fl_homes w) (ta_backend t) = Some q
  }.
  Definition placed (w : fleet) (cnt : nat -> nat) : Prop :=
    forall q, filter (fun x => Nat.eqb (fst x) q) (fl_places w) = map (pair q) (seq 0 (cnt q)).
  Definition ntasks (w : fleet) (q : nat) : nat := length (tasks_of q w).

  Lemma placed_nodup w cnt : placed w cnt -> NoDup (fl_places w).
  Proof.
    intro H. apply nodup_filters. intro q. rewrite (H q). apply FinFun.Injective_map_NoDup; [|apply seq_NoDup].
    intros a b E. congruence.
  Qed.
  Lemma placed_in w cnt q i : placed w cnt -> In (q, i) (fl_places w) <-> (i < cnt q)%nat.
  Proof using. clear utc upcoming show hash ident t0.
    intro H. assert (In (q, i) (fl_places w) <-> In (q, i) (filter (fun x => Nat.eqb (fst x) q) (fl_places w))) as ->.
    { rewrite filter_In. cbn. rewrite Nat.eqb_refl. tauto. }
    rewrite (H q), in_map_iff. split.
    - intros [x [E Hx]]. apply in_seq in Hx. injection E as <-. lia.
    - intro Hi. exists i. split; [reflexivity|]. apply in_seq. lia.
  Qed.
  Lemma placed_seat w q i : placed w (ntasks w) -> In (q, i) (fl_places w) <-> exists t, seat w (q, i) = Some t.
  Proof using. clear utc upcoming show hash ident t0.
    intro H. rewrite (placed_in w _ q i H). unfold ntasks, tasks_of, seat. cbn [fst snd].
    destruct (nth_error (fl_nodes w) q) as [s|]; cbn; [|split; [lia|intros [t E]; discriminate]].
    rewrite <- nth_error_Some. destruct (nth_error (pr_tasks s) i) as [t|]; split; intro K.
    - exists t. reflexivity.
    - discriminate.
    - exfalso. apply K. reflexivity.
    - destruct K as [t K]. discriminate.
  Qed.
  Lemma placed_task w g x : placed w (ntasks w) -> nth_error (fl_places w) g = Some x -> exists t, seat w x = Some t.
  Proof using. clear utc upcoming show hash ident t0. intros H Hg. destruct x as [q i]. apply (placed_seat w q i H). eapply nth_error_In; exact Hg. Qed.

  Lemma node_events_snoc q log now a : node_events q (log ++ [(now, a)])
    = node_events (Schedule := Schedule) (Zone := Zone) q log ++ match a with OnNode q' ev => if Nat.eqb q' q then [(now, ev)] else [] | _ => [] end.
  Proof. unfold node_events. rewrite flat_map_app. cbn. now rewrite app_nil_r. Qed.
  Lemma net_labels_snoc log now a : net_labels (log ++ [(now, a)])
    = net_labels (Schedule := Schedule) (Zone := Zone) log ++ match a with OnNet l => [l] | _ => [] end.
  Proof. unfold net_labels. rewrite flat_map_app. cbn. now rewrite app_nil_r. Qed.

  Definition tr (w : fleet) : list nevent := ntrace ident (n_found t0) (net_labels (fl_log w)).
  Definition inv_link (w : fleet) (O : list mop) : Prop :=
    flinked (VV w) (fl_streams w) (fl_asks w) (ops (fl_net w)) (names (fl_net w)) (fun k => yields k (tr w)) (yielded (tr w)) O.

  (** * Steps of the net *)
  Lemma net_clients s l : length (n_clients (fst (nstep ident s l))) = (length (n_clients s) + match l with NOpen => 1 | _ => 0 end)%nat.
  Proof.
    destruct l as [q| |c|c|c|c ex|k now|k|k]; cbn [nstep].
    - unfold db_step. destruct (qstep ident (n_db s) q). cbn. rewrite map_length. lia.
    - cbn. rewrite app_length. reflexivity.
    - destruct (nth_error (n_clients s) c) as [[[] [|n rest]]|]; try destruct (note_readable n); cbn; rewrite ?set_nth_length; lia.
    - destruct (nth_error (n_clients s) c); cbn; rewrite ?set_nth_length; lia.
    - destruct (nth_error (n_clients s) c); cbn; rewrite ?set_nth_length; lia.
    - destruct (nth_error (n_clients s) c); cbn; lia.
    - destruct (nth_error (n_streams s) k) as [st|]; [|cbn; lia]. destruct (pstream_step now (n_db s) k st) as [[ph call] evs]. cbn. lia.
    - destruct (nth_error (n_streams s) k) as [[c ex [|m q] []]|]; cbn; lia.
    - destruct (nth_error (n_streams s) k) as [[c ex q []]|]; cbn; lia.
  Qed.

  Lemma net_core now l w : core w -> l <> NOpen -> core (net now l w).
  Proof.
    intros [K1 K2 K3 [K4 K4'] K5 K6] Hl. constructor; cbn [on_net fl_net fl_nodes fl_homes fl_log]; auto.
    - rewrite net_labels_snoc, nrun_snoc, <- K1. reflexivity.
    - intros q s H. rewrite node_events_snoc, app_nil_r. auto.
    - intros q H. rewrite node_events_snoc, app_nil_r. auto.
    - split; [|exact K4']. rewrite net_clients, K4. destruct l; try lia. congruence.
  Qed.
  Lemma net_tr now l w : core w -> tr (net now l w) = tr w ++ snd (nstep ident (fl_net w) l).
  Proof.
    intro K. unfold tr. cbn [on_net fl_log]. rewrite net_labels_snoc, ntrace_snoc, <- (k_net w K). reflexivity.
  Qed.
  Lemma net_VV now l w : VV (net now l w) = VV w.
  Proof. reflexivity. Qed.
  Lemma net_quiet_link now l w O : core w -> (forall o, l <> NDb (QCall o)) -> (forall c ex, l <> NSubscribe c ex) -> (forall k now, l <> NStream k now) ->
    inv_link w O -> inv_link (net now l w) O.
  Proof.
    intros K H1 H2 H3 J. destruct (net_quiet ident (fl_net w) l H1 H2 H3) as [E1 [E2 [E3 E4]]].
    unfold inv_link. rewrite net_VV, (net_tr now l w K). cbn [on_net fl_net fl_streams fl_asks]. rewrite E1, E2, yielded_app, E4, app_nil_r.
    eapply flinked_ext; [|exact J]. intro k. cbn beta. rewrite yields_app, E3. apply app_nil_r.
  Qed.
  Lemma net_none_link now l w O C' N' : core w -> snd (nstep ident (fl_net w) l) = [] ->
    ops (fst (nstep ident (fl_net w) l)) = C' -> names (fst (nstep ident (fl_net w) l)) = N' ->
    flinked (VV w) (fl_streams w) (fl_asks w) C' N' (fun k => yields k (tr w)) (yielded (tr w)) O -> inv_link (net now l w) O.
  Proof.
    intros K E1 E2 E3 J. unfold inv_link. rewrite net_VV, (net_tr now l w K). cbn [on_net fl_net fl_streams fl_asks].
    rewrite E1, E2, E3, app_nil_r. exact J.
  Qed.

  (** * Steps of a process *)
  Lemma onn_core now q ev w w' : onn now q ev w = Some w' -> core w ->
    (forall c, ev = ANew c -> nth_error (fl_homes w) c = Some q) ->
    core w' /\ fl_net w' = fl_net w /\ fl_homes w' = fl_homes w /\ fl_places w' = fl_places w /\ fl_streams w' = fl_streams w
    /\ fl_asks w' = fl_asks w /\ tr w' = tr w
    /\ exists s s', nth_error (fl_nodes w) q = Some s /\ fl_nodes w' = set_nth q s' (fl_nodes w)
         /\ (exists r, step now s ev = Some (s', r)) /\ shape utc upcoming show now s ev s'.
  Proof.
    unfold on_node. intros H [K1 K2 K3 [K4 K4'] K5 K6] Hb.
    destruct (nth_error (fl_nodes w) q) as [s|] eqn:Eq; [|discriminate].
    destruct (step now s ev) as [[s' r]|] eqn:E; [|discriminate]. injection H as <-.
    pose proof (step_shape utc upcoming show now _ _ _ _ E) as Sh.
    assert (HL : net_labels (fl_log w ++ [(now, OnNode q ev)]) = net_labels (fl_log w)).
    { rewrite net_labels_snoc. apply app_nil_r. }
    cbn [fl_net fl_homes fl_places fl_streams fl_asks fl_nodes].
    split.
    - constructor; cbn [fl_net fl_homes fl_places fl_streams fl_asks fl_nodes fl_log]; rewrite ?HL, ?set_nth_length; auto.
      + intros q' s0 H. rewrite node_events_snoc. destruct (nth_set_cases _ _ _ _ _ H) as [[-> [-> _]]|[Hne H']].
        * rewrite Nat.eqb_refl. destruct (K2 q s Eq) as [rs Hrs]. exists (rs ++ [r]).
          eapply run_join; [exact Hrs|]. cbn [app_run]. rewrite E. reflexivity.
        * destruct (Nat.eqb_spec q q'); [congruence|]. rewrite app_nil_r. auto.
      + intros q' Hq'. rewrite node_events_snoc. destruct (Nat.eqb_spec q q') as [->|]; [|rewrite app_nil_r; auto].
        exfalso. apply nth_lt in Eq. lia.
      + intros q' s0 x H Hx. destruct (nth_set_cases _ _ _ _ _ H) as [[-> [-> _]]|[Hne H']]; [|eauto].
        destruct Sh.
        * rewrite H2 in Hx. apply in_app_or in Hx. destruct Hx as [Hx|[<-|[]]]; [eauto|]. cbn. auto.
        * rewrite H2 in Hx. eauto.
        * rewrite H3 in Hx. apply in_set_nth in Hx. destruct Hx as [->|Hx]; [|eauto]. cbn. eapply K5; [exact Eq|]. eapply nth_error_In; eassumption.
        * rewrite H2 in Hx. apply in_set_nth in Hx. destruct Hx as [->|Hx]; [|eauto]. cbn. eapply K5; [exact Eq|]. eapply nth_error_In; eassumption.
        * rewrite H1 in Hx. eauto.
      + intros q' s0 x H Hx. destruct (nth_set_cases _ _ _ _ _ H) as [[-> [-> _]]|[Hne H']]; [|eauto].
        destruct Sh.
        * rewrite H1 in Hx. eauto.
        * rewrite H4 in Hx. apply in_app_or in Hx. destruct Hx as [Hx|Hx]; [eauto|]. destruct (H5 x Hx) as [_ [-> _]].
          eapply K5; [exact Eq|]. eapply nth_error_In; eassumption.
        * rewrite H4 in Hx. apply in_map_iff in Hx. destruct Hx as [y [<- Hy]]. destruct (told_same show h y) as [_ [-> _]]. eauto.
        * rewrite H3 in Hx. eauto.
        * rewrite H3 in Hx. apply in_set_nth in Hx. destruct Hx as [->|Hx]; [|eauto].
          assert (ta_backend t' = ta_backend t) as ->.
          { destruct H4 as [[e0 [_ H4]]|[e0 [_ H4]]].
            - destruct (worker_view _ _ _ _ H4) as [? [? [? [_ [_ ->]]]]]. reflexivity.
            - apply (tick_view _ _ hash _ _ _ _ H4). }
          eapply K6; [exact Eq|]. eapply nth_error_In; eassumption.
    - do 5 (split; [reflexivity|]). split; [unfold tr; cbn [fl_log]; now rewrite HL|].
      exists s, s'. split; [first [exact Eq|reflexivity]|]. split; [reflexivity|]. split; [eauto|exact Sh].
  Qed.

  (** A step of one task. *)
  Lemma onn_task now q i ev w w' : onn now q ev w = Some w' -> core w -> placed w (ntasks w) ->
    (exists e, ev = AWorker i e) \/ (exists e, ev = ATick i e) ->
    forall g, nth_error (fl_places w) g = Some (q, i) ->
    core w' /\ placed w' (ntasks w') /\ fl_net w' = fl_net w /\ fl_streams w' = fl_streams w /\ fl_asks w' = fl_asks w /\ tr w' = tr w
    /\ exists s t t', nth_error (fl_nodes w) q = Some s /\ task_of g w = Some t /\ task_of g w' = Some t' /\ VV w' = set_nth g (tv t') (VV w)
       /\ match ev with
          | AWorker _ e => worker_task_step show t e = Some t'
          | ATick _ e => tick_task_step utc upcoming (token_cancelled t s) t e = Some t'
          | _ => False
          end.
  Proof.
    intros H K Pl Hev g Hg.
    destruct (onn_core _ _ _ _ _ H K) as [K' [P1 [P2 [P3 [P4 [P5 [P6 [s [s' [Es [Es' [[r Er] _]]]]]]]]]]]].
    { destruct Hev as [[e ->]|[e ->]]; discriminate. }
    assert (Ht : exists t t', nth_error (pr_tasks s) i = Some t /\ pr_tasks s' = set_nth i t' (pr_tasks s) /\
       match ev with
       | AWorker _ e => worker_task_step show t e = Some t'
       | ATick _ e => tick_task_step utc upcoming (token_cancelled t s) t e = Some t'
       | _ => False
       end).
    { destruct Hev as [[e ->]|[e ->]]; cbn [app_step] in Er; (destruct (nth_error (pr_tasks s) i) as [t|]; [|discriminate]).
      - destruct (worker_task_step show t e) as [t'|] eqn:E; [|discriminate]. cbn in Er. injection Er as <- _. exists t, t'. auto.
      - destruct (tick_task_step utc upcoming (token_cancelled t s) t e) as [t'|] eqn:E; [|discriminate]. cbn in Er. injection Er as <- _. exists t, t'. auto. }
    destruct Ht as [t [t' [Et [Et' Hst]]]].
    assert (Hq' : nth_error (fl_nodes w') q = Some s') by (rewrite Es'; eapply nth_set_same; exact Es).
    assert (Hseat : seat w (q, i) = Some t) by (unfold seat; cbn; rewrite Es; exact Et).
    assert (Hseat' : seat w' (q, i) = Some t') by (unfold seat; cbn; rewrite Hq', Et'; eapply nth_set_same; exact Et).
    assert (Hn : forall q', ntasks w' q' = ntasks w q').
    { intro q'. unfold ntasks, tasks_of. rewrite Es'. destruct (Nat.eq_dec q q') as [<-|Hne].
      - rewrite (nth_set_same _ _ _ _ Es), Es, Et'. apply set_nth_length.
      - rewrite nth_set_nth_other by congruence. reflexivity. }
    split; [exact K'|]. split; [intro q'; rewrite P3, Hn; apply Pl|]. do 4 (split; [assumption|]).
    exists s, t, t'. split; [exact Es|]. rewrite !task_of_seat, P3, Hg. split; [exact Hseat|]. split; [exact Hseat'|]. split; [|exact Hst].
    unfold VV. rewrite P3.
    assert (tv t' = vw w' (q, i)) as -> by (unfold vw; rewrite Hseat'; reflexivity).
    apply map_change; [eapply placed_nodup; exact Pl|exact Hg|].
    intros [q1 i1] _ Hne. unfold vw, seat. cbn [fst snd]. rewrite Es'. destruct (Nat.eq_dec q1 q) as [->|Hq].
    - rewrite (nth_set_same _ _ _ _ Es), Es, Et'. rewrite nth_set_nth_other by congruence. reflexivity.
    - rewrite nth_set_nth_other by congruence. reflexivity.
  Qed.

  Definition good (w : fleet) (O : list mop) : Prop := core w /\ placed w (ntasks w) /\ inv_link w O.

  Lemma net_quiet_good now l w O : l <> NOpen -> (forall o, l <> NDb (QCall o)) -> (forall c ex, l <> NSubscribe c ex) -> (forall k now, l <> NStream k now) ->
    good w O -> good (net now l w) O.
  Proof. intros H0 H1 H2 H3 [K [Pl J]]. split; [apply net_core; assumption|]. split; [exact Pl|]. apply net_quiet_link; assumption. Qed.

  Lemma worker_good now g e w w' O : on_worker utc upcoming show now g e w = Some w' ->
    (forall m, e <> WFetch m) -> e <> WYield -> (forall j, e <> WTake (MJob j)) -> (forall n n1 n2 o, e <> WEnd n n1 n2 o) ->
    good w O -> good w' O.
  Proof.
    intros H H1 H2 H3 H4 [K [Pl J]]. unfold on_worker in H. destruct (nth_error (fl_places w) g) as [[q i]|] eqn:Eg; [|discriminate].
    destruct (onn_task _ _ i _ _ _ H K Pl (or_introl (ex_intro _ e eq_refl)) g Eg) as [K' [Pl' [P1 [P2 [P3 [P4 [s [t [t' [_ [Et [Et' [EV Hs]]]]]]]]]]]]].
    split; [exact K'|]. split; [exact Pl'|]. unfold inv_link. rewrite P1, P2, P3, P4, EV, (worker_view_same _ _ _ _ _ Hs H1 H2 H3 H4).
    rewrite (set_nth_id _ _ _ (VV_nth _ _ _ Et)). exact J.
  Qed.
  Lemma tick_good now g e w w' O : on_tick utc upcoming show now g e w = Some w' -> (forall c, e <> Wake c) ->
    good w O -> good w' O.
  Proof.
    intros H H1 [K [Pl J]]. unfold on_tick in H. destruct (nth_error (fl_places w) g) as [[q i]|] eqn:Eg; [|discriminate].
    destruct (onn_task _ _ i _ _ _ H K Pl (or_intror (ex_intro _ e eq_refl)) g Eg) as [K' [Pl' [P1 [P2 [P3 [P4 [s [t [t' [_ [Et [Et' [EV Hs]]]]]]]]]]]]].
    split; [exact K'|]. split; [exact Pl'|]. unfold inv_link. rewrite P1, P2, P3, P4, EV.
    destruct (tick_view _ _ hash _ _ _ _ Hs) as [_ [_ [_ [_ [E _]]]]]. rewrite (E H1).
    rewrite (set_nth_id _ _ _ (VV_nth _ _ _ Et)). exact J.
  Qed.

  (** A task asks. *)
  Lemma ask_link now g n o w v V O : core w -> nth_error V g = Some v -> callable o = true ->
    flinked V (fl_streams w) (fl_asks w) (ops (fl_net w)) (names (fl_net w)) (fun k => yields k (tr w)) (yielded (tr w)) O ->
    let w' := fleet_ask ident now g n o w in
    core w' /\ fl_nodes w' = fl_nodes w /\ fl_places w' = fl_places w
    /\ flinked (set_nth g (mk_view (v_backend v) (v_worker v) (v_owed v ++ [(n, o)])) V) (fl_streams w') (fl_asks w') (ops (fl_net w')) (names (fl_net w'))
         (fun k => yields k (tr w')) (yielded (tr w')) O.
  Proof.
    intros K Hv Ho J. cbn zeta. unfold fleet_ask.
    destruct (net_call ident (fl_net w) o) as [E1 [E2 E3]].
    assert (Kn : core (net now (NDb (QCall o)) w)) by (apply net_core; [exact K|discriminate]).
    split; [destruct Kn; constructor; assumption|]. do 2 (split; [reflexivity|]).
    cbn [fl_streams fl_asks fl_net]. assert (Etr : tr (fleet_ask ident now g n o w) = tr w).
    { change (tr (fleet_ask ident now g n o w)) with (tr (net now (NDb (QCall o)) w)). rewrite (net_tr _ _ _ K), E3. apply app_nil_r. }
    unfold fleet_ask in Etr. rewrite Etr. cbn [on_net fl_net fl_streams fl_asks]. rewrite E1, E2.
    assert (length (q_calls (n_db (fl_net w))) = length (ops (fl_net w))) as -> by (unfold ops; now rewrite map_length).
    apply flinked_ask; assumption.
  Qed.
  Lemma asks_link now g n : forall l w v V O, core w -> nth_error V g = Some v -> Forall (fun o => callable o = true) l ->
    flinked V (fl_streams w) (fl_asks w) (ops (fl_net w)) (names (fl_net w)) (fun k => yields k (tr w)) (yielded (tr w)) O ->
    let w' := fold_left (fun w o => fleet_ask ident now g n o w) l w in
    core w' /\ fl_nodes w' = fl_nodes w /\ fl_places w' = fl_places w
    /\ flinked (set_nth g (mk_view (v_backend v) (v_worker v) (v_owed v ++ map (fun o => (n, o)) l)) V) (fl_streams w') (fl_asks w') (ops (fl_net w')) (names (fl_net w'))
         (fun k => yields k (tr w')) (yielded (tr w')) O.
  Proof.
    induction l as [|o l IH]; intros w v V O K Hv Ho J; cbn zeta; cbn [fold_left map].
    - rewrite app_nil_r. assert (mk_view (v_backend v) (v_worker v) (v_owed v) = v) as -> by (destruct v; reflexivity).
      rewrite (set_nth_id _ _ _ Hv). auto.
    - pose proof (Forall_inv Ho) as Ho1; pose proof (Forall_inv_tail Ho) as Ho2.
      destruct (ask_link now g n o w v V O K Hv Ho1 J) as [K1 [P1 [Q1 J1]]].
      destruct (IH _ _ _ O K1 (nth_set_same _ _ _ _ Hv) Ho2 J1) as [K2 [P2 [Q2 J2]]]. cbn [v_backend v_worker v_owed] in J2.
      split; [exact K2|]. split; [congruence|]. split; [congruence|]. rewrite set_nth_twice, <- app_assoc in J2. exact J2.
  Qed.

  (** New tasks. *)
  Lemma enlist_link now q : forall l i w cnt O, core w -> placed w cnt -> cnt q = i -> Forall fresh l ->
    (forall n t, nth_error l n = Some t -> seat w (q, (i + n)%nat) = Some t) -> inv_link w O ->
    let w' := enlist_all ident now q i l w in
    core w' /\ fl_nodes w' = fl_nodes w /\ inv_link w' O
    /\ placed w' (fun q' => if Nat.eqb q' q then (i + length l)%nat else cnt q').
  Proof.
    induction l as [|t l IH]; intros i w cnt O K Pl Hc Hf Hs J; cbn zeta; cbn [enlist_all].
    - split; [exact K|]. split; [reflexivity|]. split; [exact J|]. intro q'. rewrite (Pl q'). cbn [length]. rewrite Nat.add_0_r.
      destruct (Nat.eqb_spec q' q) as [->|]; [now rewrite Hc|reflexivity].
    - pose proof (Forall_inv Hf) as F1; pose proof (Forall_inv_tail Hf) as F2.
      assert (Hst : seat w (q, i) = Some t) by (specialize (Hs 0%nat t eq_refl); now rewrite Nat.add_0_r in Hs).
      assert (Hback : nth_error (fl_homes w) (ta_backend t) = Some q).
      { unfold seat in Hst. cbn [fst snd] in Hst. destruct (nth_error (fl_nodes w) q) as [s|] eqn:Eq; [|discriminate].
        eapply k_task; [exact K|exact Eq|]. eapply nth_error_In; exact Hst. }
      set (w1 := enlist ident now q i t w).
      assert (Hc1 : core w1 /\ fl_nodes w1 = fl_nodes w /\ fl_places w1 = fl_places w ++ [(q, i)] /\ inv_link w1 O).
      { assert (HV : forall w2 : fleet, fl_nodes w2 = fl_nodes w -> fl_places w2 = fl_places w ++ [(q, i)] -> VV w2 = VV w ++ [tv t]).
        { intros w2 E1 E2. unfold VV. rewrite E2, map_app. cbn [map].
          assert (forall x, vw w2 x = vw w x) as Hvw by (intro x; unfold vw, seat; now rewrite E1).
          f_equal; [apply map_ext; exact Hvw|]. rewrite Hvw. unfold vw. now rewrite Hst. }
        unfold w1, enlist. destruct t as [tb tk [x wk|x sc z data k|sc cfg k]]; unfold fresh in F1; cbn [ta_body ta_backend] in *.
        - assert (Hcl : (tb < length (n_clients (fl_net w)))%nat) by (rewrite (proj1 (k_homes w K)); eapply nth_lt; exact Hback).
          destruct (net_subscribe ident (fl_net w) tb (ex_name (xe_consts x)) Hcl) as [E1 [E2 E3]].
          assert (Kn : core (net now (NSubscribe tb (ex_name (xe_consts x))) w)) by (apply net_core; [exact K|discriminate]).
          split; [destruct Kn; constructor; assumption|]. do 2 (split; [reflexivity|]).
          unfold inv_link. rewrite HV by reflexivity. cbn [fl_streams fl_asks fl_net].
          match goal with |- context [tr ?x] => assert (tr x = tr w) as -> end.
          { match goal with |- tr ?x = _ => change (tr x) with (tr (net now (NSubscribe tb (ex_name (xe_consts x0))) w)) || idtac end.
            etransitivity; [exact (net_tr now (NSubscribe tb (ex_name (xe_consts x))) w K)|]. rewrite E3. apply app_nil_r. }
          cbn [on_net fl_net fl_streams fl_asks]. rewrite E1, E2.
          assert (length (n_streams (fl_net w)) = length (names (fl_net w))) as -> by (unfold names; now rewrite map_length).
          subst wk. apply flinked_spawn_worker; [|exact J]. unfold tr. rewrite (k_net w K). apply yields_none. lia.
        - split; [destruct K; constructor; assumption|]. do 2 (split; [reflexivity|]).
          unfold inv_link. rewrite HV by reflexivity. cbn [fl_streams fl_asks fl_net]. unfold WorldInv.tv. cbn [ta_body ta_backend owed]. rewrite F1.
          apply flinked_spawn_loop. exact J.
        - split; [destruct K; constructor; assumption|]. do 2 (split; [reflexivity|]).
          unfold inv_link. rewrite HV by reflexivity. cbn [fl_streams fl_asks fl_net]. unfold WorldInv.tv. cbn [ta_body ta_backend owed]. rewrite F1.
          apply flinked_spawn_loop. exact J. }
      destruct Hc1 as [K1 [P1 [Q1 J1]]].
      destruct (IH (S i) w1 (fun q' => if Nat.eqb q' q then S i else cnt q') O K1) as [K2 [P2 [J2 Pl2]]].
      + intro q'. rewrite Q1, filter_app, (Pl q'). cbn [filter fst]. rewrite (Nat.eqb_sym q' q). destruct (Nat.eqb_spec q q') as [<-|].
        * rewrite Hc, seq_S, map_app. reflexivity.
        * apply app_nil_r.
      + now rewrite Nat.eqb_refl.
      + exact F2.
      + intros n t1 Hn. unfold seat. rewrite P1. specialize (Hs (S n) t1 Hn). unfold seat in Hs. cbn [fst snd] in *.
        replace (S i + n)%nat with (i + S n)%nat by lia. exact Hs.
      + exact J1.
      + split; [exact K2|]. split; [congruence|]. split; [exact J2|]. intro q'. rewrite (Pl2 q'). cbn [length].
        destruct (Nat.eqb q' q); [|reflexivity]. do 2 f_equal. lia.
  Qed.

  (** A call of lib.rs. *)
  Lemma app_good now q ev w w' O : fleet_app utc upcoming show ident now q ev w = Some w' -> good w O -> good w' O.
  Proof.
    intros H [K [Pl J]].
    assert (G : forall ev, match ev with AWorker _ _ | ATick _ _ => False | ANew c => nth_error (fl_homes w) c = Some q | _ => True end ->
      match onn now q ev w with
      | Some w' => let n := length (tasks_of q w) in Some (enlist_all ident now q n (skipn n (tasks_of q w')) w')
      | None => None end = Some w' -> good w' O).
    { clear H ev. intros ev Hev H. destruct (onn now q ev w) as [w1|] eqn:E; [|discriminate]. cbn zeta in H. injection H as H.
      destruct (onn_core _ _ _ _ _ E K) as [K1 [P1 [P2 [P3 [P4 [P5 [P6 [s [s' [Es [Es' [_ Sh]]]]]]]]]]]].
      { intros c ->. exact Hev. }
      assert (Hq1 : nth_error (fl_nodes w1) q = Some s') by (rewrite Es'; eapply nth_set_same; exact Es).
      assert (Ht : tasks_of q w = pr_tasks s) by (unfold tasks_of; now rewrite Es).
      assert (Ht1 : tasks_of q w1 = pr_tasks s') by (unfold tasks_of; now rewrite Hq1).
      assert (Hs : exists old new, pr_tasks s' = old ++ new /\ length old = length (pr_tasks s)
         /\ Forall fresh new /\ map tv old = map tv (pr_tasks s)).
      { destruct Sh.
        - exists (pr_tasks s), []. rewrite H1, app_nil_r. auto.
        - exists (pr_tasks s), new. rewrite H4. repeat split; auto. rewrite Forall_forall. intros t Ht'. destruct (H5 t Ht') as [_ [_ [_ Hb]]]. unfold fresh.
          destruct (ta_body t); [exact Hb| |]; rewrite Hb; reflexivity.
        - exists (map (told show h) (pr_tasks s)), []. rewrite H4, app_nil_r, map_length. repeat split; auto. rewrite map_map. apply map_ext. intro. apply told_view.
        - exists (pr_tasks s), []. rewrite H3, app_nil_r. auto.
        - exfalso. destruct H4 as [[e0 [-> _]]|[e0 [-> _]]]; exact Hev. }
      destruct Hs as [old [new [Eo [El [Hf Em]]]]].
      rewrite Ht, Ht1, Eo, <- El, skipn_app, skipn_all, Nat.sub_diag in H. cbn [skipn app] in H.
      assert (Hvw : forall x, In x (fl_places w) -> vw w1 x = vw w x).
      { intros [q1 i1] Hx. apply (placed_in w _ q1 i1 Pl) in Hx. unfold ntasks in Hx. unfold vw, seat. cbn [fst snd]. rewrite Es'.
        destruct (Nat.eq_dec q1 q) as [->|Hne].
        - rewrite (nth_set_same _ _ _ _ Es), Es. rewrite Ht in Hx. rewrite Eo, nth_error_app1 by lia.
          pose proof (f_equal (fun l => nth_error l i1) Em) as Ei. cbn beta in Ei. rewrite !nth_error_map in Ei.
          destruct (nth_error old i1), (nth_error (pr_tasks s) i1); cbn in Ei; congruence.
        - rewrite nth_set_nth_other by congruence. reflexivity. }
      assert (J1 : inv_link w1 O).
      { unfold inv_link. rewrite P1, P4, P5, P6. replace (VV w1) with (VV w); [exact J|]. unfold VV. rewrite P3. symmetry. apply map_ext_in. exact Hvw. }
      destruct (enlist_link now q new (length old) w1 (ntasks w) O K1) as [K2 [Q1 [J2 Pl2]]].
      + intro q'. rewrite P3. apply Pl.
      + unfold ntasks. rewrite Ht. symmetry. exact El.
      + exact Hf.
      + intros n t Hn. unfold seat. cbn [fst snd]. rewrite Hq1, Eo, nth_error_app2 by lia. replace (length old + n - length old)%nat with n by lia. exact Hn.
      + exact J1.
      + rewrite <- H. split; [exact K2|]. split; [|exact J2]. intro q'. rewrite (Pl2 q'). do 2 f_equal. unfold ntasks, tasks_of. rewrite Q1, Es'.
        destruct (Nat.eqb_spec q' q) as [->|Hne].
        * rewrite (nth_set_same _ _ _ _ Es), Eo, app_length. reflexivity.
        * rewrite nth_set_nth_other by congruence. reflexivity. }
    unfold fleet_app in H.
    destruct ev as [b|h|h e|h e sc data|h e sc data z|h sc cfg|h|h|h|h|i e|i e]; try discriminate; try (eapply G; [|exact H]; exact Logic.I).
    destruct (nth_error (fl_homes w) b) as [q'|] eqn:Eb; [|discriminate]. destruct (Nat.eqb_spec q' q) as [->|]; [|discriminate].
    apply (G (ANew b)); [exact Eb|]. rewrite H. cbn zeta. f_equal. unfold on_node in H.
    destruct (nth_error (fl_nodes w) q) as [s|] eqn:Es; [|discriminate]. cbn [app_step app_new] in H. injection H as <-.
    unfold tasks_of. cbn [fl_nodes]. rewrite (nth_set_same _ _ _ _ Es), Es. cbn [pr_tasks]. rewrite skipn_all. reflexivity.
  Qed.

  (** A poll. *)
  Lemma poll_good now g w w' O : fleet_poll utc upcoming show ident now g w = Some w' -> good w O -> good w' O.
  Proof.
    intros H [K [Pl J]]. unfold fleet_poll in H. destruct (polled g w) as [k|] eqn:Ep; [|discriminate].
    unfold polled in Ep. destruct (task_of g w) as [t|] eqn:Et; [|discriminate].
    destruct (nth_error (fl_streams w) g) as [[k0|]|] eqn:Ek; try discriminate.
    destruct (ta_body t) as [x wk|x sc z data tk|sc cfg tk] eqn:Eb; try discriminate.
    destruct (polls x wk); [|discriminate]. injection Ep as ->.
    destruct (f_worker _ _ _ _ _ _ _ _ J g (tv t) (ex_name (xe_consts x)) (jobs_taken wk) (VV_nth _ _ _ Et)) as [k1 [S1 [S2 _]]].
    { unfold WorldInv.tv. cbn. now rewrite Eb. }
    assert (k1 = k) as -> by congruence.
    assert (Est : exists st, nth_error (n_streams (fl_net w)) k = Some st).
    { unfold names in S2. rewrite nth_error_map in S2. destruct (nth_error (n_streams (fl_net w)) k) as [st|]; [eauto|discriminate]. }
    destruct Est as [st Est].
    destruct (net_stream ident (fl_net w) k now st Est) as [st' [more [E1 [E2 [E3 [E4 E5]]]]]].
    assert (Kn : core (net now (NStream k now) w)) by (apply net_core; [exact K|discriminate]).
    unfold phase_of in H. cbn [on_net fl_net] in H. rewrite E1 in H. cbn [option_map] in H.
    assert (Hq : (forall j, s_phase st' <> PYield (Ok j)) -> good (net now (NStream k now) w) O).
    { intro Hne. split; [exact Kn|]. split; [exact Pl|]. eapply net_none_link; [exact K| |exact E2|exact E4|].
      - destruct (s_phase st') as [| | | | | |[j| |]]; try exact E5. exfalso. eapply Hne. reflexivity.
      - apply flinked_more; [exact E3|exact J]. }
    destruct (s_phase st') as [| | | | | |[j|err|]] eqn:Eph; try (injection H as <-; apply Hq; discriminate).
    - destruct E5 as [ci E5].
      unfold on_worker in H. change (fl_places (net now (NStream k now) w)) with (fl_places w) in H.
      destruct (nth_error (fl_places w) g) as [[q i]|] eqn:Eg; [|discriminate].
      destruct (onn_task _ _ i _ _ _ H Kn Pl (or_introl (ex_intro _ _ eq_refl)) g Eg) as [K' [Pl' [P1 [P2 [P3 [P4 [s [t1 [t' [_ [Et1 [Et' [EV Hs]]]]]]]]]]]]].
      assert (t1 = t) as -> by (change (task_of g (net now (NStream k now) w)) with (task_of g w) in Et1; congruence).
      split; [exact K'|]. split; [exact Pl'|]. unfold inv_link. rewrite P1, P2, P3, P4, EV, net_VV.
      assert (Hv : tv t' = mk_view (v_backend (tv t)) (Some (ex_name (xe_consts x), jobs_taken wk ++ [j])) (v_owed (tv t))).
      { destruct (worker_view _ _ _ _ Hs) as [x' [wk' [w2 [Eb' [Es2 ->]]]]]. rewrite Eb in Eb'.
        assert (x' = x) as -> by now inversion Eb'. assert (wk' = wk) as -> by (inversion Eb'; reflexivity).
        destruct (wstep_taken _ _ _ _ _ _ _ Es2 ltac:(discriminate) ltac:(discriminate)) as [T1 [_ T3]].
        unfold WorldInv.tv. cbn [ta_body ta_backend v_backend v_owed owed]. rewrite Eb. cbn [owed]. rewrite T1, T3 by discriminate. reflexivity. }
      rewrite Hv, (net_tr _ _ _ K), E5, yielded_app. cbn [on_net fl_net fl_streams fl_asks]. rewrite E2, E4.
      eapply flinked_take; [exact (VV_nth _ _ _ Et)|unfold WorldInv.tv; cbn; now rewrite Eb|exact Ek| |].
      2:{ apply flinked_more; [exact E3|exact J]. }
      intro k'. cbn beta. rewrite yields_app. cbn. rewrite app_nil_r. reflexivity.
    - eapply worker_good; [exact H|..]; try discriminate. apply Hq. discriminate.
  Qed.

  Lemma polled_stream g w O k : good w O -> polled g w = Some k -> exists st, nth_error (n_streams (fl_net w)) k = Some st.
  Proof.
    intros [K [Pl J]] Ep. unfold polled in Ep. destruct (task_of g w) as [t|] eqn:Et; [|discriminate].
    destruct (nth_error (fl_streams w) g) as [[k0|]|] eqn:Ek; try discriminate.
    destruct (ta_body t) as [x wk|x sc z data tk|sc cfg tk] eqn:Eb; try discriminate.
    destruct (polls x wk); [|discriminate]. injection Ep as ->.
    destruct (f_worker _ _ _ _ _ _ _ _ J g (tv t) (ex_name (xe_consts x)) (jobs_taken wk) (VV_nth _ _ _ Et)) as [k1 [S1 [S2 _]]].
    { unfold WorldInv.tv. cbn. now rewrite Eb. }
    assert (k1 = k) as -> by congruence.
    unfold names in S2. rewrite nth_error_map in S2. destruct (nth_error (n_streams (fl_net w)) k) as [st|]; [eauto|discriminate].
  Qed.

  (** * One event *)
  Lemma step_good now w ev w' O : fstep now w ev = Some w' -> good w O -> good w' (O ++ called [(now, ev)]).
  Proof.
    intros H G.
    destruct ev as [|q|q ev|o|i pick|i e|c|c|c|g|g|g|g|g n|g n n1 n2 o|g n|g|g c0 c1|g c|g|g c|g c]; cbn [fleet_step] in H; cbn [called flat_map snd app];
      rewrite ?app_nil_r.
    - injection H as <-. destruct G as [[K1 K2 K3 [K4 K4'] K5 K6] [Pl J]].
      assert (Hcase : forall q s, nth_error (fl_nodes w ++ [process_init]) q = Some s -> nth_error (fl_nodes w) q = Some s \/ (q = length (fl_nodes w) /\ s = process_init)).
      { intros q s Hq. destruct (nth_app_cases _ _ _ _ Hq) as [[A _]|B]; auto. }
      split; [|split].
      + constructor; cbn [fl_net fl_homes fl_nodes fl_log]; auto; rewrite ?app_length; cbn [length].
        * intros q s Hq. destruct (Hcase q s Hq) as [Hq'|[-> ->]]; [auto|]. exists []. rewrite K3 by lia. reflexivity.
        * intros q Hq. apply K3. lia.
        * split; [exact K4|]. intros c q Hc. specialize (K4' c q Hc). lia.
        * intros q s r Hq Hr. destruct (Hcase q s Hq) as [Hq'|[-> ->]]; [eauto|destruct Hr].
        * intros q s t Hq Ht. destruct (Hcase q s Hq) as [Hq'|[-> ->]]; [eauto|destruct Ht].
      + intro q. cbn [fl_places]. rewrite (Pl q). do 2 f_equal. unfold ntasks, tasks_of. cbn [fl_nodes].
        destruct (Nat.lt_ge_cases q (length (fl_nodes w))) as [Hl|Hl].
        * rewrite nth_error_app1 by exact Hl. reflexivity.
        * rewrite nth_error_app2 by exact Hl. rewrite (proj2 (nth_error_None _ _) Hl). destruct (q - length (fl_nodes w))%nat as [|d]; [reflexivity|destruct d; reflexivity].
      + unfold inv_link. cbn [fl_net fl_streams fl_asks]. unfold tr. cbn [fl_log].
        replace (VV (mk_fleet (fl_net w) (fl_homes w) (fl_nodes w ++ [process_init]) (fl_places w) (fl_streams w) (fl_asks w) (fl_log w))) with (VV w); [exact J|].
        unfold VV. cbn [fl_places]. apply map_ext_in. intros [q i] Hx. apply (placed_seat w q i Pl) in Hx. destruct Hx as [t Hx].
        unfold vw. rewrite Hx. unfold seat in *. cbn [fst snd fl_nodes] in *. destruct (nth_error (fl_nodes w) q) as [s|] eqn:Eq; [|discriminate].
        rewrite (nth_app_old _ _ _ _ Eq), Hx. reflexivity.
    - destruct (Nat.ltb_spec q (length (fl_nodes w))) as [Hq|]; [|discriminate]. injection H as <-.
      destruct G as [K [Pl J]]. pose proof (net_quiet_link now NOpen w O K ltac:(discriminate) ltac:(discriminate) ltac:(discriminate) J) as J'.
      split; [|split; [exact Pl|exact J']]. destruct K as [K1 K2 K3 [K4 K4'] K5 K6].
      constructor; cbn [on_net fl_net fl_homes fl_nodes fl_log]; auto.
      + rewrite net_labels_snoc, nrun_snoc, <- K1. reflexivity.
      + intros q' s Hs. rewrite node_events_snoc, app_nil_r. auto.
      + intros q' Hs. rewrite node_events_snoc, app_nil_r. auto.
      + split; [cbn [nstep fst n_clients]; rewrite !app_length, K4; reflexivity|]. intros c q' Hc. destruct (nth_app_cases _ _ _ _ Hc) as [[Hc' _]|[_ ->]]; [eauto|exact Hq].
      + intros q' s r Hs Hr. apply nth_app_old. eauto.
      + intros q' s t Hs Ht. apply nth_app_old. eauto.
    - eapply app_good; eassumption.
    - assert (Ho : callable o = true /\ w' = net now (NDb (QCall o)) w) by (destruct o; cbn in H; (discriminate || (split; [reflexivity|injection H as <-; reflexivity]))).
      destruct Ho as [Ho ->]. destruct G as [K [Pl J]]. split; [apply net_core; [exact K|discriminate]|]. split; [exact Pl|].
      destruct (net_call ident (fl_net w) o) as [E1 [E2 E3]]. eapply net_none_link; [exact K|exact E3|exact E1|exact E2|].
      apply flinked_call; [exact Ho|exact J].
    - injection H as <-. apply net_quiet_good; [discriminate..|exact G].
    - injection H as <-. apply net_quiet_good; [discriminate..|exact G].
    - injection H as <-. apply net_quiet_good; [discriminate..|exact G].
    - injection H as <-. apply net_quiet_good; [discriminate..|exact G].
    - injection H as <-. apply net_quiet_good; [discriminate..|exact G].
    - eapply poll_good; eassumption.
    - unfold fleet_recv in H. destruct (polled g w) as [k|]; [|discriminate]. injection H as <-. apply net_quiet_good; [discriminate..|exact G].
    - unfold fleet_error in H. destruct (polled g w) as [k|]; [|discriminate]. destruct (phase_of k w) as [[]|]; try discriminate.
      eapply worker_good; [exact H|discriminate..|]. apply net_quiet_good; [discriminate..|exact G].
    - eapply worker_good; [exact H|discriminate..|exact G].
    - eapply worker_good; [exact H|discriminate..|exact G].
    - unfold fleet_end in H. destruct (on_worker utc upcoming show now g (WEnd n n1 n2 o) w) as [w1|] eqn:E; [|discriminate].
      destruct G as [K [Pl J]]. unfold on_worker in E. destruct (nth_error (fl_places w) g) as [[q i]|] eqn:Eg; [|discriminate].
      destruct (onn_task _ _ i _ _ _ E K Pl (or_introl (ex_intro _ _ eq_refl)) g Eg) as [K1 [Pl1 [P1 [P2 [P3 [P4 [s [t [t' [_ [Et [Et' [EV Hs]]]]]]]]]]]]].
      rewrite Et' in H. destruct (worker_view _ _ _ _ Hs) as [x [wk [w2 [Eb [Es2 ->]]]]]. cbn [ta_body ta_backend] in H.
      destruct (wstep_taken _ _ _ _ _ _ _ Es2 ltac:(discriminate) ltac:(discriminate)) as [T1 [T2 _]]. rewrite app_nil_r in T1.
      destruct (T2 n n1 n2 o eq_refl) as [[op [R1 [R2 R3]]]|[R1 R2]].
      + rewrite R2 in H. injection H as <-.
        assert (J1 : flinked (VV w) (fl_streams w1) (fl_asks w1) (ops (fl_net w1)) (names (fl_net w1)) (fun k => yields k (tr w1)) (yielded (tr w1)) O).
        { rewrite P1, P2, P3, P4. exact J. }
        destruct (ask_link now g n op w1 (tv t) (VV w) O K1 (VV_nth _ _ _ Et) (callable_new _ R3) J1) as [K2 [Q1 [Q2 J2]]].
        split; [exact K2|]. split.
        { intro q'. rewrite Q2. rewrite (Pl1 q'). unfold ntasks, tasks_of. rewrite Q1. reflexivity. }
        unfold inv_link. replace (VV (fleet_ask ident now g n op w1)) with (VV w1).
        2:{ unfold VV. rewrite Q2. apply map_ext. intro z. unfold vw, seat. rewrite Q1. reflexivity. }
        rewrite EV.
        match goal with |- flinked (set_nth g ?a _) _ _ _ _ _ _ _ =>
          assert (a = mk_view (v_backend (tv t)) (v_worker (tv t)) (v_owed (tv t) ++ [(n, op)])) as -> end; [|exact J2].
        unfold WorldInv.tv. cbn [ta_body ta_backend owed v_backend v_worker v_owed]. rewrite R1, T1, Eb. reflexivity.
      + rewrite R2 in H. cbn in H. injection H as <-. split; [exact K1|]. split; [exact Pl1|]. unfold inv_link. rewrite P1, P2, P3, P4, EV.
        unfold WorldInv.tv at 1. cbn [ta_body ta_backend owed]. rewrite R1, T1.
        assert (mk_view (ta_backend t) (Some (ex_name (xe_consts x), jobs_taken wk)) (reports wk) = tv t) as -> by (unfold WorldInv.tv; rewrite Eb; reflexivity).
        rewrite (set_nth_id _ _ _ (VV_nth _ _ _ Et)). exact J.
    - unfold fleet_answer in H. destruct (answers g n w) as [|[[| | | | | | | | | |[|r| |]]|] [|]]; try discriminate.
      all: eapply worker_good; [exact H|discriminate..|exact G].
    - eapply worker_good; [exact H|discriminate..|exact G].
    - eapply tick_good; [exact H|discriminate|exact G].
    - unfold fleet_wake in H. destruct (on_tick utc upcoming show now g (Wake c) w) as [w1|] eqn:E; [|discriminate].
      destruct G as [K [Pl J]]. unfold on_tick in E. destruct (nth_error (fl_places w) g) as [[q i]|] eqn:Eg; [|discriminate].
      destruct (onn_task _ _ i _ _ _ E K Pl (or_intror (ex_intro _ _ eq_refl)) g Eg) as [K1 [Pl1 [P1 [P2 [P3 [P4 [s [t [t' [_ [Et [Et' [EV Hs]]]]]]]]]]]]].
      rewrite Et' in H. destruct (tick_view _ _ hash _ _ _ _ Hs) as [T1 [_ [T2 [T3 [_ T4]]]]].
      destruct (T4 c eq_refl) as [next [F1 [F2 F3]]]. rewrite F1 in H. rewrite <- F1 in H. injection H as <-.
      assert (J1 : flinked (VV w) (fl_streams w1) (fl_asks w1) (ops (fl_net w1)) (names (fl_net w1)) (fun k => yields k (tr w1)) (yielded (tr w1)) O).
      { rewrite P1, P2, P3, P4. exact J. }
      assert (F3' : Forall (fun o => callable o = true) (deeds hash (ta_body t') c next)).
      { eapply Forall_impl; [|exact F3]. intros o Ho. apply callable_new. exact Ho. }
      destruct (asks_link now g (length (firings (ta_body t'))) (deeds hash (ta_body t') c next) w1 (tv t) (VV w) O K1 (VV_nth _ _ _ Et) F3' J1) as [K2 [Q1 [Q2 J2]]].
      cbn zeta in *. split; [exact K2|]. split.
      { intro q'. rewrite Q2. rewrite (Pl1 q'). unfold ntasks, tasks_of. rewrite Q1. reflexivity. }
      unfold inv_link. match goal with |- flinked (VV ?x) _ _ _ _ _ _ _ => replace (VV x) with (VV w1) end.
      2:{ unfold VV. rewrite Q2. apply map_ext. intro z. unfold vw, seat. rewrite Q1. reflexivity. }
      rewrite EV.
      assert (tv t' = mk_view (v_backend (tv t)) (v_worker (tv t)) (v_owed (tv t) ++ map (fun o => (length (firings (ta_body t')), o)) (deeds hash (ta_body t') c next))) as ->.
      { rewrite T2. unfold WorldInv.tv. cbn [v_backend v_owed]. rewrite T1, F2. f_equal. exact T3. }
      exact J2.
    - eapply tick_good; [exact H|discriminate|exact G].
    - unfold fleet_acted in H. destruct (task_of g w) as [t|]; [|discriminate].
      destruct (existsb panics _); [eapply tick_good; [exact H|discriminate|exact G]|].
      destruct (forallb answered _); [|discriminate]. eapply tick_good; [exact H|discriminate|exact G].
    - eapply tick_good; [exact H|discriminate|exact G].
  Qed.

  Lemma init_good : good (fleet_init t0) [].
  Proof.
    split; [|split; [|exact flinked_init]].
    - constructor; cbn; auto.
      + intros q s H. destruct q; discriminate.
      + split; [reflexivity|]. intros c q H. destruct c; discriminate.
      + intros q s r H. destruct q; discriminate.
      + intros q s r H. destruct q; discriminate.
    - intro q. unfold ntasks, tasks_of. cbn. destruct q; reflexivity.
  Qed.

  Lemma run_good : forall es w w' O, frun w es = Some w' -> good w O -> good w' (O ++ called es).
  Proof.
    induction es as [|[now ev] es IH]; intros w w' O H G; cbn [fleet_run] in H.
    - injection H as <-. cbn. rewrite app_nil_r. exact G.
    - destruct (fstep now w ev) as [w1|] eqn:E; [|discriminate]. pose proof (IH _ _ _ H (step_good _ _ _ _ _ E G)) as G'.
      rewrite <- app_assoc in G'. assert (called [(now, ev)] ++ called es = called ((now, ev) :: es)) as Ec; [|rewrite Ec in G'; exact G'].
      unfold called. cbn [flat_map]. now rewrite app_nil_r.
  Qed.

  Theorem reach_good es w : frun (fleet_init t0) es = Some w -> good w (called es).
  Proof. intro H. exact (run_good es _ _ _ H init_good). Qed.
End Inv.
