(** Lemmas about jobs that are overtaken on Postgres. *)
From Coq Require Import Lia Permutation.
From Verif Require Import Base Chrono Types TypesProofs Query QueryProofs Memory MemSpec MemProofs MemWake PgRow PgQuery Pg PgSpec PgProofs PgOps PgConc PgConcSpec PgConcProofs PgConcLive
  PgSysProofs SuiteProofs PgListen PgListenSpec PgListenProofs Codec Builder Runner RunnerSpec WorkerProofs Ticker Pruner ApiProofs App AppSpec AppProofs AppEnd
  World WorldSpec WorldProofs WorldThms WorldLive WorldWork Fleet FleetSpec FleetLink FleetInv FleetThms FleetLive FleetWork.

Section Starve.
  Context {Schedule Zone : Type}.
  Variable utc : Zone.
  Variable upcoming : Schedule -> Zone -> time -> option time.
  Variable show : Z -> string.
  Variable hash : forall e : executor, xe_data e -> Z.
  Variable ident : option Z -> option string -> list status -> Z.
  Variable t0 : tbl.
  Hypothesis Hsd : sound_table t0.
  Notation fleet := (fleet Schedule Zone).
  Notation tsk := (task Schedule Zone).
  Notation fstep := (fleet_step utc upcoming show hash ident).
  Notation frun := (fleet_run utc upcoming show hash ident).
  Notation net := (on_net (Schedule := Schedule) (Zone := Zone) ident).
  Notation reached := (FleetLive.reached utc upcoming show hash ident t0).
  Notation aside := FleetLive.aside.
  Notation ready := (ready utc upcoming show hash ident t0).
  Notation works := (works utc upcoming show hash ident).
  Notation rows w := (t_rows (q_tbl (n_db (fl_net w)))).

  Definition is_run (x : time * fleet_event Schedule Zone) : Prop := exists i p, snd x = FRun i p.
  Lemma called_runs (l : list (time * fleet_event Schedule Zone)) : Forall is_run l -> called l = [].
  Proof. induction 1 as [|x l [i [p E]] _ IH]; [reflexivity|]. unfold called in *. cbn [flat_map]. rewrite E. exact IH. Qed.
  Lemma called_own g s (l : list (time * fleet_event Schedule Zone)) : Forall (fun x => of_task g s (snd x)) l -> called l = [].
  Proof. induction 1 as [|x l E _ IH]; [reflexivity|]. unfold called in *. cbn [flat_map]. destruct (snd x); try exact IH. destruct E. Qed.
  Lemma called_app (l l' : list (time * fleet_event Schedule Zone)) : called (l ++ l') = called l ++ called l'.
  Proof. apply flat_map_app. Qed.

  (** The program enqueues a job while a worker is ready. *)
  Lemma enqueue_ready T w g t e wk k st q : ready w g t e wk k st -> empty_handed g w ->
    exists es w', frun w es = Some w' /\ called es = [OpEnqueue q] /\ Forall (fun x => T <= fst x /\ (snd x = FCall (OpEnqueue q) \/ is_run x)) es
      /\ ready w' g t e wk k st /\ empty_handed g w' /\ q_tbl (n_db (fl_net w')) = fst (pg_step ident T (q_tbl (n_db (fl_net w))) (OpEnqueue q))
      /\ (forall h, task_of h w' = task_of h w).
  Proof.
    intros R He. pose proof (db_nodup utc upcoming show hash ident t0 Hsd w (rd_reached _ _ _ _ _ _ _ _ _ _ _ _ _ R)) as Hn.
    set (i := length (q_calls (n_db (fl_net w)))).
    destruct (alone_call ident T (n_db (fl_net w)) (OpEnqueue q) Hn (rd_settled _ _ _ _ _ _ _ _ _ _ _ _ _ R)) as [n Hal].
    set (w1 := net T (NDb (QCall (OpEnqueue q))) w).
    destruct (ndb_net ident (fl_net w) (QCall (OpEnqueue q))) as [D1 D2].
    destruct (FleetLive.run_labels utc upcoming show hash ident T (repeat (QRun i T 0) n) w1) as [w2 [B1 [B2 B3]]].
    { apply Forall_forall. intros l Hl. apply repeat_spec in Hl. subst l. reflexivity. }
    change (fl_net w1) with (fst (nstep ident (fl_net w) (NDb (QCall (OpEnqueue q))))) in B3. rewrite D1 in B3. unfold i in B3. rewrite Hal in B3.
    assert (V : frun w ((T, FCall (OpEnqueue q)) :: map (fun l => (T, ev_of l)) (repeat (QRun i T 0) n)) = Some w2) by exact B1.
    exists ((T, FCall (OpEnqueue q)) :: map (fun l => (T, ev_of l)) (repeat (QRun i T 0) n)), w2. split; [exact V|].
    assert (Fr : Forall is_run (map (fun l => (T, ev_of (Schedule := Schedule) (Zone := Zone) l)) (repeat (QRun i T 0) n))).
    { apply Forall_forall. intros x Hx. apply in_map_iff in Hx. destruct Hx as [l [<- Hl]]. apply repeat_spec in Hl. subst l. do 2 eexists. reflexivity. }
    split; [unfold called; cbn [flat_map snd app]; f_equal; exact (called_runs _ Fr)|]. split.
    { constructor; [split; [cbn; lia|left; reflexivity]|]. apply Forall_forall. intros x Hx. split; [|right; exact (proj1 (Forall_forall _ _) Fr x Hx)].
      apply in_map_iff in Hx. destruct Hx as [l [<- _]]. cbn. lia. }
    assert (St : n_streams (fl_net w2) = n_streams (fl_net w)) by (rewrite (co_net _ _ B2); exact D2).
    assert (Sm : fl_streams w2 = fl_streams w) by (rewrite (co_streams _ _ B2); reflexivity).
    assert (Ta : forall h, task_of h w2 = task_of h w) by (intro h; rewrite (FleetLive.co_task _ _ _ B2); reflexivity).
    split; [|split; [|split; [rewrite B3; reflexivity|exact Ta]]].
    - destruct R as [R1 R2 R3 R4 R5 R6 R7 R8]. constructor; auto.
      + eapply FleetLive.reached_more; eassumption.
      + now rewrite Ta.
      + now rewrite Sm.
      + now rewrite St.
      + unfold settled. rewrite B3. intros c x Hx. cbn [q_calls] in Hx. apply nth_snoc in Hx. destruct Hx as [Hx| ->]; [exact (R8 c x Hx)|]. eexists. reflexivity.
    - intros k' st' a b d c o res K1 K2 K3 K4. rewrite Sm in K1. rewrite St in K2.
      pose proof (rd_reached _ _ _ _ _ _ _ _ _ _ _ _ _ R) as [es0 H]. destruct (reach_good utc upcoming show hash ident t0 es0 w H) as [K [_ J]].
      pose proof K2 as K2''. rewrite (k_net _ _ _ _ _ _ K) in K2''.
      destruct (yi_load _ _ (yinv_run ident t0 _) _ _ _ _ _ _ K2'' K3) as [_ [pc Hpc]]. rewrite <- (k_net _ _ _ _ _ _ K) in Hpc.
      rewrite B3 in K4. cbn [q_calls] in K4. rewrite nth_error_app1 in K4 by (eapply nth_lt; exact Hpc).
      exact (He k' st' a b d c o res K1 K2 K3 K4).
  Qed.

  (** What a request needs to overtake row [x]: it is for the same executor, can be kept and run, is due, and has a better priority. *)
  Definition overtakes (T : time) (e : executor) (x : row) (q : enqueuable) : Prop :=
    kept_request q /\ eq_executor q = ex_name (xe_consts e) /\ eq_criteria q = None /\ eq_priority q < r_priority x /\ eq_scheduled_at q <= T
    /\ forall id now, runnable (xe_codec e) (xe_fns e) (after_hand_out now (new_job T id q)).

  Lemma overtaken T g e x q : kept_time T -> overtakes T e x q -> forall N w t wk k st,
    ready w g t e wk k st -> can_do e (q_tbl (n_db (fl_net w))) -> empty_handed g w -> In x (rows w) ->
    t_next (q_tbl (n_db (fl_net w))) + Z.of_nat N <= 2147483648 ->
    exists es w' wk' st' l, frun w es = Some w' /\ called es = repeat (OpEnqueue q) N
      /\ Forall (fun y => T <= fst y /\ (snd y = FCall (OpEnqueue q) \/ forall s, of_task g s (snd y))) es
      /\ ready w' g (mk_task (ta_backend t) (ta_token t) (BWorker e wk')) e wk' k st' /\ empty_handed g w' /\ In x (rows w')
      /\ jobs_taken wk' = jobs_taken wk ++ l /\ length l = N /\ Forall (fun j => j_priority j < r_priority x) l
      /\ (forall h, h <> g -> task_of h w' = task_of h w).
  Proof.
    intros HT [O1 [O2 [O3 [O4 [O5 O6]]]]]. induction N as [|N IH]; intros w t wk k st R Hc He Hx Hn.
    { exists [], w, wk, st, []. split; [reflexivity|]. split; [reflexivity|]. split; [constructor|].
      split; [|rewrite app_nil_r; auto 10]. destruct R as [R1 R2 R3 R4 R5 R6 R7 R8]. constructor; auto. rewrite R2. f_equal. destruct t; cbn in *. now subst. }
    destruct (enqueue_ready T w g t e wk k st q R He) as [es1 [w1 [A1 [A2 [A3 [A4 [A5 [A6 A7]]]]]]]].
    set (tb := q_tbl (n_db (fl_net w))) in *.
    destruct (request_ok_kept q O1) as [Ok _].
    assert (E1 : q_tbl (n_db (fl_net w1)) = mk_tbl (t_rows tb ++ [new_row T (t_next tb) None q]) (t_next tb + 1)).
    { rewrite A6. cbn [pg_step]. unfold pg_enqueue. rewrite O3. unfold pg_insert. rewrite Ok. cbn [negb].
      assert (E : 2147483647 <? t_next tb = false) by (apply Z.ltb_ge; lia). rewrite E. reflexivity. }
    set (r0 := new_row T (t_next tb) None q) in *.
    pose proof (new_row_represents T (t_next tb) None q HT O1) as Hrep. fold r0 in Hrep.
    assert (W0 : waits_for (ex_name (xe_consts e)) r0) by (split; [left; reflexivity|exact O2]).
    assert (C1 : can_do e (q_tbl (n_db (fl_net w1)))).
    { destruct Hc as [Hc1 Hc2]. split; [exact Hc1|]. rewrite E1. cbn [t_rows]. intros r Hr Hw. apply in_app_or in Hr. destruct Hr as [Hr|[<-|[]]]; [exact (Hc2 r Hr Hw)|].
      exists (new_job T (t_next tb) q). split; [exact Hrep|]. intro now. apply O6. }
    assert (S0 : r_scheduled_at r0 <= T). { replace (r_scheduled_at r0) with (eq_scheduled_at q); [exact O5|]. destruct (request_ok_kept q O1) as [_ Et]. symmetry. exact Et. }
    destruct (serve_one utc upcoming show hash ident t0 Hsd T w1 g t e wk k st r0 A4 C1 A5 ltac:(rewrite E1; apply in_or_app; right; left; reflexivity) W0 S0)
      as [es2 [w2 [t2 [wk2 [st2 [pre [r [post [r' [Q1 [Q2 [Q3 [Q4 [Q5 [Q6 [Q7 [Q8 [Q9 [Q10 [j [Q11 Q12]]]]]]]]]]]]]]]]]]]]].
    assert (Hpr : r_priority r < r_priority x) by (change (r_priority r0) with (eq_priority q) in Q10; lia).
    assert (Hx1 : In x (pre ++ r :: post)) by (rewrite <- Q6, E1; apply in_or_app; left; exact Hx).
    assert (Hx2 : In x (rows w2)).
    { rewrite Q7. cbn [t_rows]. apply in_app_or in Hx1. apply in_or_app. destruct Hx1 as [Hx1|[->|Hx1]]; [auto|lia|right; right; exact Hx1]. }
    assert (C2 : can_do e (q_tbl (n_db (fl_net w2)))).
    { eapply (tended_can T); [exact C1|]. rewrite Q6, Q7. cbn [t_rows]. apply Forall2_app; [apply tended_refl|]. constructor; [|apply tended_refl].
      exists (ex_name (xe_consts e)). right. auto. }
    destruct (IH w2 t2 wk2 k st2 Q2 C2 Q4 Hx2) as [es3 [w3 [wk3 [st3 [l [U1 [U2 [U3 [U4 [U5 [U6 [U7 [U8 [U9 U10]]]]]]]]]]]]]].
    { rewrite Q7. cbn [t_next]. rewrite E1. cbn [t_next]. lia. }
    exists (es1 ++ es2 ++ es3), w3, wk3, st3, (j :: l). split; [eapply run2; [exact A1|]; eapply run2; [exact (wo_run _ _ _ _ _ _ _ _ _ _ Q1)|exact U1]|].
    split; [rewrite !called_app, A2, (called_own g (n_db (fl_net w)) es2 (wo_own _ _ _ _ _ _ _ _ _ _ Q1 _)), U2; reflexivity|]. split.
    { apply Forall_app. split; [|apply Forall_app; split].
      - eapply Forall_impl; [|exact A3]. intros [ty y] [Y1 [Y2|[c [p Y2]]]]; split; auto. right. cbn [snd] in *. subst y. intro s. exact Logic.I.
      - apply Forall_forall. intros y Hy. split; [exact (proj1 (Forall_forall _ _) (wo_late _ _ _ _ _ _ _ _ _ _ Q1) y Hy)|right; intro s].
        exact (proj1 (Forall_forall _ _) (wo_own _ _ _ _ _ _ _ _ _ _ Q1 s) y Hy).
      - exact U3. }
    subst t2. cbn [ta_backend ta_token] in U4. split; [exact U4|]. split; [exact U5|]. split; [exact U6|].
    split; [rewrite U7, Q11, <- app_assoc; reflexivity|]. split; [cbn; now rewrite U8|]. split; [constructor; [lia|exact U9]|].
    intros h Hh. rewrite (U10 h Hh), (as_others _ _ _ (wo_aside _ _ _ _ _ _ _ _ _ _ Q1) h Hh). apply A7.
  Qed.
End Starve.
