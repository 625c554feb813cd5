(** Workers driving the Postgres backend: C91, work comes to an end. *)
From Coq Require Import Permutation.
From Verif Require Import Base Chrono Types TypesProofs Query Memory MemSpec MemHist MemInv Samples Codec Builder Runner
  RunnerSpec WorkerProofs SysProofs PropsApi PropsRunner DrainProofs PgRow FxHash Pg PgSpec PgProofs PgOps PropsPg PropsPgRefuse
  PgSys PgSysSpec PgSysProofs PropsPgSys PgDrain.

(** * C91 Work comes to an end on Postgres *)

(** As C90_bounded: from any state that can be reached on, results are no more than the attempts that
    the stored jobs had left and that later requests ask for.  Each lost report is still counted
    among what is left, so that it uses up an attempt for good. *)
Theorem C91_bounded : forall D M (c : codec D M) fns show ident es0 s0 es s js0 js,
  pg_orderly_run c fns show ident pgsys_init es0 s0 -> pg_orderly_run c fns show ident s0 es s -> reruns_nothing es ->
  Forall2 represents (t_rows (g_tbl s0)) js0 -> Forall2 represents (t_rows (g_tbl s)) js ->
  exists new, g_log s = new ++ g_log s0
    /\ results_in new + total results_left js <= total results_left js0 + attempts_asked es
    /\ Z.of_nat (length (g_lost s)) <= total results_left js.
Proof.
  intros D M c fns show ident es0 s0 es s js0 js H0 H Hn J0 J.
  destruct (pg_work_run c fns show ident es es0 s0 s H0 H Hn) as [new [E1 H1]].
  rewrite (rows_left_read _ _ J0), (rows_left_read _ _ J) in H1.
  exists new. split; [exact E1|]. split; [exact H1|]. rewrite <- (rows_left_read _ _ J).
  apply (lost_counts c fns show ident (es0 ++ es)). apply run_ginv. eapply pg_orun_app; eassumption.
Qed.
Print Assumptions C91_bounded.
(** The table of a reachable state can always be read so. *)
Theorem C91_readable : forall D M (c : codec D M) fns show ident es s,
  pg_orderly_run c fns show ident pgsys_init es s -> exists js, Forall2 represents (t_rows (g_tbl s)) js.
Proof.
  intros D M c fns show ident es s H. pose proof (gi_read _ _ _ _ _ _ (run_ginv c fns show ident es s H)) as Hr.
  induction (t_rows (g_tbl s)) as [|r l IH]; [exists []; constructor|].
  destruct (Hr r (or_introl eq_refl)) as [j Hj]. destruct IH as [js Hjs]; [intros x Hx; apply Hr; right; exact Hx|].
  exists (j :: js). constructor; assumption.
Qed.
Print Assumptions C91_readable.
(** From the empty table: results and lost reports together are no more than the attempts asked for. *)
Theorem C91_from_nothing : forall D M (c : codec D M) fns show ident es s,
  pg_orderly_run c fns show ident pgsys_init es s -> reruns_nothing es ->
  results_in (g_log s) + Z.of_nat (length (g_lost s)) <= attempts_asked es.
Proof.
  intros D M c fns show ident es s H Hn. destruct (C91_readable D M c fns show ident es s H) as [js J].
  destruct (C91_bounded D M c fns show ident [] pgsys_init es s [] js) as [new [E [H1 H2]]]; auto; try constructor.
  rewrite E, app_nil_r. cbn [total fold_right] in H1. lia.
Qed.
Print Assumptions C91_from_nothing.

(** When no worker holds a job and no job comes out of the table for anybody, every job whose time
    has come, on the clock of the database, is finished or its report was lost. *)
Theorem C91_no_work_left : forall D M (c : codec D M) fns show ident es s now,
  pg_orderly_run c fns show ident pgsys_init es s -> g_held s = [] ->
  (forall ex j, snd (pg_load now ex (g_tbl s)) <> Ok (Some j)) ->
  forall j, stored s j -> j_scheduled_at j <= pg_time now -> finished j \/ lost s (j_id j).
Proof. intros. eapply pg_idle; eassumption. Qed.
Print Assumptions C91_no_work_left.

(** From any state that can be reached, if the workers execute what they hold and every waiting job
    can be started, the workers can finish every job whose report was not lost, starting at any time
    they like, by taking jobs and completing them; no job and no further report is lost on the way. *)
Theorem C91_can_finish : forall D M (c : codec D M) fns show ident es s T,
  pg_orderly_run c fns show ident pgsys_init es s ->
  (forall h, In h (g_held s) -> h_exec h <> None) ->
  (forall j, stored s j -> waiting j -> forall now, exists x, begin_job c fns (after_hand_out now j) = Spawned x) ->
  exists es' s', pg_orderly_run c fns show ident s es' s'
    /\ Forall (fun ev => match ev with
                         | STake now _ => T <= now
                         | SReport now1 now2 now _ o => T <= now1 /\ T <= now2 /\ T <= now /\ o = ODone
                         | SOp _ _ => False
                         end) es'
    /\ g_held s' = [] /\ g_lost s' = g_lost s
    /\ map r_id (t_rows (g_tbl s')) = map r_id (t_rows (g_tbl s))
    /\ forall j, stored s' j -> finished j \/ lost s' (j_id j).
Proof.
  intros D M c fns show ident es s T H Hx Hst.
  destruct (pg_can_finish c fns show ident _ T es s (le_n _) H Hx Hst) as (es' & s' & A1 & A2 & A3 & A4 & A5 & A6).
  exists es', s'. repeat (split; [assumption|]). exact A6.
Qed.
Print Assumptions C91_can_finish.

Definition pg_status (s : pgsys) : list (Z * string * Z * Z) :=
  map (fun r => (r_id r, r_status r, r_attempt r, r_max_attempts r)) (t_rows (g_tbl s)).
Definition lossy_events : list sevent :=
  [ SOp (1 * ms) (OpEnqueue (req mail 0 (5 * ms))); SOp (2 * ms) (OpEnqueue (req mail 0 (6 * ms)));
    SOp (3 * ms) (OpEnqueue (req mail 0 (7 * ms))); STake (10 * ms) mail; STake (11 * ms) mail;
    SReport (20 * ms) (20 * ms) (21 * ms) 0 (OError (Some ("custom"%string, "boom"%string)));
    SReport (30 * ms) (30 * ms) (31 * ms) 0 (OPanic (PText zero_text) "task panicked"); STake (40 * ms) mail ].
Example C91_example : exists s js,
  pg_orderly_run text_codec mail_fns shown fx_identifier pgsys_init lossy_events s /\ reruns_nothing lossy_events
  /\ pg_status s = [(1, "retryable"%string, 1, 3); (2, "executing"%string, 1, 3); (3, "executing"%string, 1, 3)]
  /\ Forall2 represents (t_rows (g_tbl s)) js /\ total results_left js = 8 /\ attempts_asked lossy_events = 9
  /\ results_in (g_log s) = 1 /\ g_lost s = [2]
  /\ (forall h, In h (g_held s) -> h_exec h <> None)
  /\ (forall j, stored s j -> waiting j ->
        forall now, exists x, begin_job text_codec mail_fns (after_hand_out now j) = Spawned x)
  /\ exists es' s', pg_orderly_run text_codec mail_fns shown fx_identifier s es' s'
       /\ pg_status s' = [(1, "complete"%string, 2, 3); (2, "executing"%string, 1, 3); (3, "complete"%string, 1, 3)]
       /\ g_held s' = [] /\ forall ex j, snd (pg_load (9000 * ms) ex (g_tbl s')) <> Ok (Some j).
Proof.
  assert (Hq : forall t prio, 1 <= eq_max_attempts (req mail prio t) <= 65535 /\ keeps_attempts (req mail prio t)).
  { intros t prio. split; [cbn; lia|]. intros uq r H. discriminate. }
  eexists. eexists. split.
  { unfold lossy_events. do 3 (pg_orderly_step; [apply Hq|]). do 5 (pg_orderly_step; [exact Logic.I|]). apply por_nil. }
  split; [intros now id Hin; cbn in Hin; repeat (destruct Hin as [Hin|Hin]; [discriminate|]); destruct Hin|].
  split; [vm_compute; reflexivity|].
  split; [repeat (constructor; [apply represents_iff; vm_compute; reflexivity|]); constructor|].
  split; [vm_compute; reflexivity|]. split; [vm_compute; reflexivity|]. split; [vm_compute; reflexivity|]. split; [reflexivity|].
  split; [intros h Hh; cbn in Hh; destruct Hh as [<-|[]]; discriminate|].
  split.
  { intros j Hj Hw now. stored_in Hj; try (destruct Hw; discriminate). eexists. cbv. reflexivity. }
  exists [SReport (50 * ms) (50 * ms) (51 * ms) 0 ODone; STake (2000 * ms) mail; SReport (2100 * ms) (2100 * ms) (2100 * ms) 0 ODone].
  eexists. split. { do 3 (pg_orderly_step; [exact Logic.I|]). apply por_nil. }
  split; [vm_compute; reflexivity|]. split; [reflexivity|]. intros ex j.
  unfold pg_load. destruct (storable ex); cbn [negb]; [|discriminate].
  match goal with |- context [filter ?f ?l] => replace (filter f l) with (@nil row) end; [discriminate|].
  assert (Hno : forall now e r, r_status r = "complete"%string \/ r_status r = "executing"%string -> pg_ready now e r = false).
  { intros now e r H. unfold pg_ready. replace (String.eqb (r_status r) "scheduled" || String.eqb (r_status r) "retryable") with false
      by (destruct H as [-> | ->]; reflexivity).
    rewrite andb_false_r. reflexivity. }
  symmetry. cbn [g_tbl t_rows filter]. rewrite !Hno by (cbn; auto). reflexivity.
Qed.
