(** How much work is left in the Postgres table, and that it only shrinks. *)
From Coq Require Import Permutation.
From Verif Require Import Base Chrono Types TypesProofs Query QueryProofs Memory MemSpec MemProofs MemHist MemInv Codec Runner
  RunnerSpec WorkerProofs SysProofs DrainProofs PgRow PgQuery Pg PgSpec PgProofs PgQueryProofs PgOps PgHist PgSys PgSysSpec PgSysProofs.

(** As [results_left], for a row. *)
Definition row_left (r : row) : Z :=
  if String.eqb (r_status r) "executing" then r_max_attempts r - r_attempt r + 1
  else if String.eqb (r_status r) "scheduled" || String.eqb (r_status r) "retryable" then r_max_attempts r - r_attempt r
  else 0.
Definition rows_left (l : list row) : Z := fold_right (fun r n => row_left r + n) 0 l.
Lemma row_left_spec r j : represents r j -> row_left r = results_left j.
Proof.
  intro H. row_fields H. apply spelled_label in R2. unfold row_left, results_left. rewrite R2, R6, R7.
  destruct (j_status j); reflexivity.
Qed.
Lemma rows_left_app l l' : rows_left (l ++ l') = rows_left l + rows_left l'.
Proof. induction l as [|x l IH]; cbn; [reflexivity|]. unfold rows_left in *. rewrite IH. lia. Qed.
Lemma rows_left_mid l x l' : rows_left (l ++ x :: l') = rows_left l + row_left x + rows_left l'.
Proof. rewrite rows_left_app. cbn. fold (rows_left l'). lia. Qed.
Lemma rows_left_read l js : Forall2 represents l js -> rows_left l = total results_left js.
Proof. induction 1 as [|r j l js H _ IH]; [reflexivity|]. cbn. rewrite (row_left_spec _ _ H). unfold rows_left, total in IH. rewrite IH. reflexivity. Qed.
Lemma rows_left_swap t t' r r' : swapped t t' r r' -> rows_left (t_rows t') = rows_left (t_rows t) - row_left r + row_left r'.
Proof. intros [pre [post [E ->]]]. rewrite E. cbn [t_rows]. rewrite !rows_left_mid. lia. Qed.
Lemma rows_left_filter keep l : (forall r, In r l -> 0 <= row_left r) -> rows_left (filter keep l) <= rows_left l.
Proof.
  induction l as [|r l IH]; intro H; [cbn; lia|]. pose proof (H r (or_introl eq_refl)). specialize (IH (fun x Hx => H x (or_intror Hx))).
  cbn [filter]. destruct (keep r); unfold rows_left in *; cbn; lia.
Qed.
Lemma rows_left_ids l ids : NoDup ids -> NoDup (map r_id l) -> (forall r, In r l -> 0 <= row_left r) ->
  (forall i, In i ids -> exists r, In r l /\ r_id r = i /\ 1 <= row_left r) -> Z.of_nat (length ids) <= rows_left l.
Proof.
  revert ids. induction l as [|r l IH]; intros ids Hi Hn Hz H.
  - destruct ids as [|i ids]; [cbn; lia|]. destruct (H i (or_introl eq_refl)) as [r [[] _]].
  - inversion Hn as [|? ? Hr Hn']; subst. pose proof (Hz r (or_introl eq_refl)) as H0.
    destruct (in_dec Z.eq_dec (r_id r) ids) as [Hin|Hin].
    + assert (H1 : 1 <= row_left r).
      { destruct (H _ Hin) as [r' [[<-|Hr'] [E H1]]]; [exact H1|]. exfalso. apply Hr. rewrite <- E. apply in_map. exact Hr'. }
      apply in_split in Hin. destruct Hin as [l1 [l2 ->]].
      pose proof (NoDup_remove_1 _ _ _ Hi) as Hi1. pose proof (NoDup_remove_2 _ _ _ Hi) as Hi2.
      assert (Hl : Z.of_nat (length (l1 ++ l2)) <= rows_left l).
      { apply IH; auto; [intros x Hx; apply Hz; right; exact Hx|]. intros i Hx.
        destruct (H i) as [r' [[<-|Hr'] [E H2]]]; [apply in_app_or in Hx; apply in_or_app; cbn; tauto| |eauto].
        exfalso. apply Hi2. rewrite E. exact Hx. }
      rewrite !app_length in *. cbn [length]. unfold rows_left in *. cbn [fold_right]. lia.
    + assert (Hl : Z.of_nat (length ids) <= rows_left l).
      { apply IH; auto; [intros x Hx; apply Hz; right; exact Hx|]. intros i Hx.
        destruct (H i Hx) as [r' [[<-|Hr'] [E H2]]]; [|eauto]. exfalso. apply Hin. rewrite E. exact Hx. }
      unfold rows_left in *. cbn [fold_right]. lia.
Qed.

(** Executors of stored jobs have names the database can keep. *)
Definition named (t : tbl) : Prop := forall r, In r (t_rows t) -> storable (r_executor r) = true.
Lemma refused_request ident now e t t' res : storable (eq_executor e) = false -> pg_enqueue ident now e t = (t', res) ->
  t_next t' = t_next t.
Proof.
  intros Hs E. assert (Hins : forall key, pg_insert now key e t = (t', res) -> t_next t' = t_next t).
  { intros key Hi. unfold pg_insert, pg_request_ok in Hi. rewrite Hs in Hi. cbn in Hi. injection Hi as <- <-. reflexivity. }
  unfold pg_enqueue, pg_insert_unique in E. destruct (eq_criteria e) as [uq|]; [|eapply Hins; exact E].
  destruct (pg_window uq (eq_scheduled_at e)) as [w|]; [|injection E as <- <-; reflexivity].
  destruct (pg_window_ok uq (eq_executor e) w); cbn [negb] in E; [|injection E as <- <-; reflexivity].
  destruct (find (pg_conflict uq (eq_executor e) w) (t_rows t)) as [r0|]; [|eapply Hins; exact E].
  destruct (pg_resolve uq e r0 t) as [t1|] eqn:Er; injection E as <- <-; [|reflexivity].
  unfold pg_resolve in Er. destruct (uc_on_conflict uq) as [|rp]; [injection Er as <-; reflexivity|].
  destruct (existsb _ (rp_for_statuses rp)); [|injection Er as <-; reflexivity].
  unfold pg_replace in Er. destruct (pg_assignments rp e); [discriminate|]. destruct (forallb fst _); [|discriminate].
  destruct (update_rows _ _ _) as [[rows n]|]; [|discriminate]. injection Er as <-. reflexivity.
Qed.
Lemma step_named ident now t o : NoDup (map r_id (t_rows t)) -> named t -> named (fst (pg_step ident now t o)).
Proof.
  intros Hn H. destruct (pg_step ident now t o) as [t' res] eqn:Es. cbn [fst].
  destruct (pg_step_cases ident now t o t' res Hn Es) as [[-> _]|[[e [key [-> [-> [_ Et]]]]]|[[pre [r [r' [post [E [-> [_ [_ [Hx _]]]]]]]]]|[ps [keep [_ [_ ->]]]]]]].
  - exact H.
  - assert (Hst : storable (eq_executor e) = true).
    { destruct (storable (eq_executor e)) eqn:Eb; [reflexivity|]. exfalso. cbn [pg_step] in Es.
      destruct (pg_enqueue ident now e t) as [t1 r1] eqn:Ee. injection Es as -> _.
      pose proof (refused_request ident now e t t' r1 Eb Ee) as Hnx. rewrite Et in Hnx. cbn in Hnx. lia. }
    rewrite Et. intros r Hr. cbn [t_rows] in Hr. apply in_app_or in Hr. destruct Hr as [Hr|[<-|[]]]; [auto|]. exact Hst.
  - intros x Hin. cbn [t_rows] in Hin. apply in_app_or in Hin.
    destruct Hin as [Hin|[<-|Hin]]; [apply H; rewrite E; apply in_or_app; auto| |apply H; rewrite E; apply in_or_app; right; right; exact Hin].
    rewrite Hx. apply H. rewrite E. apply in_or_app. right. left. reflexivity.
  - intros r Hr. cbn [t_rows] in Hr. apply filter_In in Hr. apply H. tauto.
Qed.

Section S.
  Context {D M : Type}.
  Variable c : codec D M.
  Variable fns : executor_fns D M.
  Variable show : Z -> string.
  Variable ident : option Z -> option string -> list status -> Z.
  Notation sstep := (pgsys_step c fns show ident).
  Notation orun := (pg_orderly_run c fns show ident).
  Notation inv := (ginv c fns show ident).

  Lemma pg_orun_app s es s1 es' s' : orun s es s1 -> orun s1 es' s' -> orun s (es ++ es') s'.
  Proof. intros H H'. induction H as [s|s ev s2 es s1 Ho Hs _ IH]; [exact H'|]. econstructor; eauto. Qed.

  Lemma sys_named s ev s' : NoDup (map r_id (t_rows (g_tbl s))) -> named (g_tbl s) -> sstep s ev = Some s' -> named (g_tbl s').
  Proof.
    intros Hn H Hs. destruct ev as [now o|now ex|now1 now2 now i o]; cbn [pgsys_step] in Hs.
    - injection Hs as <-. cbn [g_tbl]. apply step_named; assumption.
    - pose proof (step_named ident now (g_tbl s) (OpLoad ex) Hn H) as Hl. cbn [pg_step] in Hl.
      destruct (pg_load now ex (g_tbl s)) as [t' [[j|]|e|]]; injection Hs as <-; exact Hl.
    - destruct (nth_error (g_held s) i) as [[hj [x|]]|]; try discriminate.
      destruct (report show now1 now2 x o) as [op|]; [|discriminate].
      pose proof (step_named ident now (g_tbl s) op Hn H) as Hl.
      destruct (pg_step ident now (g_tbl s) op) as [t' r]. cbn [fst] in Hl.
      assert (g_tbl s' = t') as ->; [|exact Hl].
      destruct r as [[u|e|]|[[]|e|]|r|r]; injection Hs as <-; reflexivity.
  Qed.
  Lemma run_named es s : orun pgsys_init es s -> named (g_tbl s).
  Proof.
    assert (Hgen : forall es2 es1 s1 s, orun pgsys_init es1 s1 -> named (g_tbl s1) -> orun s1 es2 s -> named (g_tbl s)).
    { induction es2 as [|ev es2 IH]; intros es1 s1 s2 H1 Hm H2; inversion H2 as [|? ? s3 ? ? Ho Hs H3]; subst; [exact Hm|].
      apply (IH (es1 ++ [ev]) s3); [eapply pg_orun_snoc; eassumption| |exact H3].
      eapply sys_named; [|exact Hm|exact Hs]. apply (run_ginv c fns show ident es1 s1 H1). }
    intro H. apply (Hgen es [] pgsys_init s); [constructor| |exact H]. intros r [].
  Qed.

  Lemma row_bounds es s r : inv es s -> In r (t_rows (g_tbl s)) -> exists j, represents r j /\ stored s j
    /\ 0 <= j_attempt j <= j_max_attempts j /\ j_max_attempts j <= 65535.
  Proof.
    intros I Hr. destruct (gi_read _ _ _ _ _ _ I r Hr) as [j Hj]. exists j. split; [exact Hj|].
    assert (Hst : stored s j) by (exists r; auto). split; [exact Hst|].
    destruct (gi_fine _ _ _ _ _ _ I j Hst) as [mx [_ [Hm F]]].
    pose proof (fi_range _ _ _ _ _ F). pose proof (fi_max _ _ _ _ _ F). lia.
  Qed.
  Lemma row_nonneg es s r : inv es s -> In r (t_rows (g_tbl s)) -> 0 <= row_left r.
  Proof.
    intros I Hr. destruct (row_bounds es s r I Hr) as [j [Hj [_ [H1 _]]]]. rewrite (row_left_spec _ _ Hj).
    apply left_nonneg. exact H1.
  Qed.

  Lemma pg_work_step es s ev s' :
    inv es s -> pg_orderly s ev -> (forall now id, ev <> SOp now (OpRerun id)) -> sstep s ev = Some s' ->
    exists new, g_log s' = new ++ g_log s
      /\ results_in new + rows_left (t_rows (g_tbl s')) <= rows_left (t_rows (g_tbl s)) + attempts_asked [ev].
  Proof.
    intros I Ho Hrr Hs. pose proof (proj1 (gi_ids _ _ _ _ _ _ I)) as Hn. pose proof (gi_read _ _ _ _ _ _ I) as Hread.
    destruct ev as [now o|now ex|now1 now2 now i o]; unfold pgsys_step in Hs.
    - injection Hs as <-. exists []. split; [reflexivity|]. change (results_in []) with 0. cbn [g_tbl].
      destruct o as [e|ex|id|id t0 er|id er|id er|id t0|ps|id|j0|q|ex| |]; cbn [pg_orderly] in Ho; try contradiction;
        cbn [pg_step fst attempts_asked fold_right]; try lia.
      + destruct Ho as [Hmax Hk]. destruct (pg_enqueue ident now e (g_tbl s)) as [t' res] eqn:E. cbn [fst].
        destruct (enqueue_swaps ident now e (g_tbl s) t' res Hn Hk Hread E) as [->|[[-> [key [_ ->]]]|[r [r' [j [j' [Hsw [Hj [Hj' Ha]]]]]]]]].
        * lia.
        * cbn [t_rows]. rewrite rows_left_app. cbn. lia.
        * rewrite (rows_left_swap _ _ _ _ Hsw), (row_left_spec _ _ Hj), (row_left_spec _ _ Hj').
          destruct Ha as [_ [A1 [A2 [A3 _]]]].
          assert (results_left j' = results_left j) by (unfold results_left; rewrite A1, A2, A3; reflexivity). lia.
      + destruct (pg_cancelled now id er (g_tbl s)) as [t' res] eqn:E. cbn [fst]. unfold pg_cancelled in E.
        destruct (update_swaps _ _ _ _ _ _ Hn E) as [[-> _]|[-> [r [r' [Hsw [Eid Ef]]]]]]; [lia|].
        injection Ef as <-. rewrite (rows_left_swap _ _ _ _ Hsw).
        pose proof (row_nonneg es s r I (swapped_in _ _ _ _ Hsw)).
        match goal with |- context [row_left (put_status ?a ?b)] => change (row_left (put_status a b)) with 0 end. lia.
      + destruct (pg_prune now ps (g_tbl s)) as [t' res] eqn:E. cbn [fst].
        destruct (prune_keeps now ps (g_tbl s) t' res Hn E) as [_ [[keep ->] _]].
        pose proof (rows_left_filter keep (t_rows (g_tbl s)) (fun r => row_nonneg es s r I)). lia.
      + destruct (Hrr now id). reflexivity.
    - exists []. change (results_in []) with 0. cbn [attempts_asked fold_right].
      destruct (pg_load now ex (g_tbl s)) as [t' res] eqn:E.
      destruct (load_swaps now ex (g_tbl s) t' res Hn Hread E) as [[-> Hq]|[r [r' [j [Hsw [Hj [Hw [Hj' ->]]]]]]]].
      + destruct Hq as [->|[e ->]]; injection Hs as <-; (split; [reflexivity|]); cbn [g_tbl]; lia.
      + injection Hs as <-. split; [reflexivity|]. cbn [g_tbl].
        rewrite (rows_left_swap _ _ _ _ Hsw), (row_left_spec _ _ Hj), (row_left_spec _ _ Hj').
        assert (results_left (after_hand_out (pg_time now) j) = results_left j).
        { destruct Hw as [Hw|Hw]; unfold results_left; rewrite Hw; cbn; lia. }
        lia.
    - destruct (nth_error (g_held s) i) as [[hj [x|]]|] eqn:En; try discriminate.
      destruct (report show now1 now2 x o) as [op|] eqn:Er; [|discriminate].
      destruct (pg_step ident now (g_tbl s) op) as [t' res] eqn:Es.
      destruct (gi_held _ _ _ _ _ _ I _ (nth_error_In _ _ En)) as [j [Hst [F1 [F2 [F3 [F4 F5]]]]]].
      destruct (F5 x eq_refl) as [X1 X2]. cbn [h_job] in F1, F3, F4, X1, X2.
      assert (Xid : x_id x = j_id j) by (cbn [h_id h_job] in *; congruence).
      destruct (gi_fine _ _ _ _ _ _ I j Hst) as [mx [B [Hm F]]]. destruct Hst as [r [Hr Hj]].
      assert (Hfin : x_final x = (j_attempt j =? j_max_attempts j)) by (rewrite X2, F3, F4; reflexivity).
      destruct (report_row show ident now1 now2 now x o op (g_tbl s) t' res r j _ _ _ mx Er Hn Hr Hj Hfin Xid F2 F Hm Es)
        as [[-> [e ->]]|[-> [r' [j' [Hsw [Hj' [Eid [F' Hnex]]]]]]]].
      + injection Hs as <-. exists []. split; [reflexivity|]. change (results_in []) with 0. cbn [g_tbl attempts_asked fold_right]. lia.
      + injection Hs as <-. exists [(x_id x, o)]. split; [reflexivity|]. cbn [g_tbl attempts_asked fold_right].
        rewrite (rows_left_swap _ _ _ _ Hsw), (row_left_spec _ _ Hj), (row_left_spec _ _ Hj').
        assert (E1 : results_in [(x_id x, o)] = b2z (negb (is_snooze o))) by (unfold results_in; cbn; destruct (is_snooze o); reflexivity).
        rewrite E1. destruct F as [A1 A2 A3 _ _ _ _ _ _]. destruct F' as [B1 B2 B3 _ _ _ _ _ _].
        assert (E2 : b2z (is_status Executing j) = 1) by (unfold is_status; rewrite F2; reflexivity).
        assert (E3 : b2z (is_status Executing j') = 0).
        { unfold is_status. destruct (j_status j'); try reflexivity. destruct Hnex. reflexivity. }
        assert (E4 : results_left j = j_max_attempts j - j_attempt j + 1) by (unfold results_left; rewrite F2; reflexivity).
        assert (E5 : results_left j' <= j_max_attempts j' - j_attempt j').
        { unfold results_left. destruct (j_status j'); try lia. destruct Hnex. reflexivity. }
        lia.
  Qed.

  Lemma pg_work_run es : forall es0 s0 s,
    orun pgsys_init es0 s0 -> orun s0 es s -> reruns_nothing es ->
    exists new, g_log s = new ++ g_log s0
      /\ results_in new + rows_left (t_rows (g_tbl s)) <= rows_left (t_rows (g_tbl s0)) + attempts_asked es.
  Proof.
    induction es as [|ev es IH]; intros es0 s0 s H0 Hr Hn; inversion Hr as [|? ? s1 ? ? Ho Hs Hr1]; subst.
    - exists []. split; [reflexivity|]. change (results_in []) with 0. cbn [attempts_asked fold_right]. lia.
    - destruct (pg_work_step es0 s0 ev s1 (run_ginv c fns show ident es0 s0 H0) Ho) as [new [E1 H1]]; auto.
      { intros now id ->. apply (Hn now id). left. reflexivity. }
      destruct (IH (es0 ++ [ev]) s1 s) as [new' [E2 H2]]; [eapply pg_orun_snoc; eassumption|exact Hr1| |].
      { intros now id Hin. apply (Hn now id). right. exact Hin. }
      exists (new' ++ new). rewrite E2, E1, app_assoc. split; [reflexivity|]. rewrite results_in_app, (asked_cons show ev es). lia.
  Qed.

  (** Each lost report leaves a job that counts. *)
  Lemma lost_counts es s : inv es s -> Z.of_nat (length (g_lost s)) <= rows_left (t_rows (g_tbl s)).
  Proof.
    intro I. apply rows_left_ids.
    - pose proof (gi_nodup _ _ _ _ _ _ I) as H. unfold away in H. clear -H.
      induction (map h_id (g_held s)) as [|x l IH]; [exact H|]. inversion H; auto.
    - exact (proj1 (gi_ids _ _ _ _ _ _ I)).
    - intros r Hr. exact (row_nonneg es s r I Hr).
    - intros id Hid. destruct (gi_lost _ _ _ _ _ _ I id Hid) as [j [[r [Hr Hj]] [E1 E2]]].
      exists r. split; [exact Hr|]. split; [rewrite (represents_id _ _ Hj); exact E1|].
      rewrite (row_left_spec _ _ Hj). destruct (row_bounds es s r I Hr) as [j1 [Hj1 [_ [H1 _]]]].
      assert (j1 = j) as -> by (eapply represents_fun; eassumption). unfold results_left. rewrite E2. lia.
  Qed.

  (** If a job is due, a job is handed out. *)
  Lemma due_handed es s now r j : orun pgsys_init es s -> In r (t_rows (g_tbl s)) -> represents r j -> waiting j ->
    j_scheduled_at j <= pg_time now -> exists j', snd (pg_load now (j_executor j) (g_tbl s)) = Ok (Some j').
  Proof.
    intros Hrun Hr Hj Hw Ht. pose proof (run_ginv c fns show ident es s Hrun) as I.
    pose proof (run_named es s Hrun r Hr) as Hst.
    destruct (pg_load now (j_executor j) (g_tbl s)) as [t' res] eqn:E. cbn [snd].
    destruct (load_swaps now (j_executor j) (g_tbl s) t' res (proj1 (gi_ids _ _ _ _ _ _ I)) (gi_read _ _ _ _ _ _ I) E)
      as [[-> Hq]|[r1 [r' [j1 [_ [_ [_ [_ ->]]]]]]]]; [exfalso|eauto].
    assert (Hex : r_executor r = j_executor j) by (row_fields Hj; assumption). rewrite Hex in Hst.
    unfold pg_load in E. rewrite Hst in E. cbn [negb] in E.
    pose proof (stable_sort_head pg_leb pg_leb_total pg_leb_trans (filter (pg_ready now (j_executor j)) (t_rows (g_tbl s)))) as Hh.
    assert (Hin : In r (filter (pg_ready now (j_executor j)) (t_rows (g_tbl s)))).
    { apply filter_In. split; [exact Hr|]. unfold pg_ready. rewrite (proj2 (label_waiting r j Hj) Hw), Hex, String.eqb_refl, !andb_true_r.
      apply Z.ltb_lt. unfold dt_diff. replace (r_scheduled_at r) with (j_scheduled_at j) by (row_fields Hj; congruence).
      change (100 * ns_per_ms) with 100000000. unfold time in *. lia. }
    destruct (stable_sort pg_leb (filter (pg_ready now (j_executor j)) (t_rows (g_tbl s)))) as [|r0 l] eqn:Eo.
    { assert (Hp := sorted_same pg_leb (filter (pg_ready now (j_executor j)) (t_rows (g_tbl s)))). rewrite Eo in Hp.
      apply (Permutation_in r Hp) in Hin. destruct Hin. }
    destruct Hh as [fpre [fpost [Ef _]]].
    assert (H0 : In r0 (t_rows (g_tbl s))).
    { assert (H0 : In r0 (filter (pg_ready now (j_executor j)) (t_rows (g_tbl s)))) by (rewrite Ef; apply in_or_app; right; left; reflexivity).
      apply filter_In in H0. tauto. }
    destruct (row_bounds es s r0 I H0) as [j0 [Hj0 [_ [B1 B2]]]].
    assert (Ht0 : exists r1, pg_take now r0 = Some r1).
    { unfold pg_take, int4. replace (in_i32 (r_attempt r0 + 1)) with true; [eauto|]. symmetry. apply in_i32_spec.
      replace (r_attempt r0) with (j_attempt j0) by (row_fields Hj0; congruence). lia. }
    destruct Ht0 as [r1 Et]. apply in_split in H0. destruct H0 as [pre [post Es]].
    pose proof (proj1 (gi_ids _ _ _ _ _ _ I)) as Hn. rewrite Es in Hn.
    rewrite Es, (update_rows_one pre r0 post _ r1 Et Hn), Et in E.
    assert (Hj1 : represents r1 (after_hand_out (pg_time now) j0)).
    { unfold pg_take, int4 in Et. destruct (in_i32 (r_attempt r0 + 1)); [|discriminate]. injection Et as <-. apply row_taken. exact Hj0. }
    apply represents_iff in Hj1. rewrite Hj1 in E. injection E as _ <-. destruct Hq as [Hq|[e Hq]]; discriminate.
  Qed.

  (** Nothing comes out of the table: everything due is finished or lost. *)
  Lemma pg_idle es s now : orun pgsys_init es s -> g_held s = [] ->
    (forall ex j, snd (pg_load now ex (g_tbl s)) <> Ok (Some j)) ->
    forall j, stored s j -> j_scheduled_at j <= pg_time now -> finished j \/ lost s (j_id j).
  Proof.
    intros Hrun Hh Hl j Hst Ht. pose proof (run_ginv c fns show ident es s Hrun) as I.
    destruct (status_cases j) as [Hw|[He|Hf]]; [exfalso|right|left; exact Hf].
    - destruct Hst as [r [Hr Hj]]. destruct (due_handed es s now r j Hrun Hr Hj Hw Ht) as [j' Hx]. exact (Hl _ _ Hx).
    - pose proof (gi_executing _ _ _ _ _ _ I j Hst He) as Ha. unfold away in Ha. rewrite Hh in Ha. exact Ha.
  Qed.

  Definition pg_waiting (r : row) : bool := String.eqb (r_status r) "scheduled" || String.eqb (r_status r) "retryable".
  Definition pg_to_do (s : pgsys) : nat := (2 * length (filter pg_waiting (t_rows (g_tbl s))) + length (g_held s))%nat.
  Lemma to_do_swap t t' r r' : swapped t t' r r' ->
    (length (filter pg_waiting (t_rows t')) + (if pg_waiting r then 1 else 0)
     = length (filter pg_waiting (t_rows t)) + (if pg_waiting r' then 1 else 0))%nat.
  Proof.
    intros [pre [post [E ->]]]. rewrite E. cbn [t_rows]. rewrite !filter_app, !app_length. cbn [filter].
    destruct (pg_waiting r), (pg_waiting r'); cbn [length]; lia.
  Qed.
  Lemma ids_swap t t' r r' : swapped t t' r r' -> r_id r' = r_id r -> map r_id (t_rows t') = map r_id (t_rows t).
  Proof. intros [pre [post [E ->]]] H. rewrite E. cbn [t_rows]. rewrite !map_app. cbn [map]. rewrite H. reflexivity. Qed.

  Lemma pg_can_finish n : forall T es s,
    (pg_to_do s <= n)%nat -> orun pgsys_init es s ->
    (forall h, In h (g_held s) -> h_exec h <> None) ->
    (forall j, stored s j -> waiting j -> startable c fns j) ->
    exists es' s', orun s es' s' /\ Forall (working T) es' /\ g_held s' = [] /\ g_lost s' = g_lost s
      /\ map r_id (t_rows (g_tbl s')) = map r_id (t_rows (g_tbl s))
      /\ forall j, stored s' j -> finished j \/ lost s' (j_id j).
  Proof.
    induction n as [|n IH]; intros T es s Hn Hr Hx Hst; pose proof (run_ginv c fns show ident es s Hr) as I.
    - exists [], s. unfold pg_to_do in Hn. assert (Hh : g_held s = []) by (destruct (g_held s); [reflexivity|cbn in Hn; lia]).
      split; [constructor|]. split; [constructor|]. split; [exact Hh|]. split; [reflexivity|]. split; [reflexivity|].
      intros j Hj. destruct (status_cases j) as [Hw|[He|Hf]]; [exfalso|right|left; exact Hf].
      + destruct Hj as [r [Hin Hj]]. apply (label_waiting r j Hj) in Hw.
        assert (H0 : In r (filter pg_waiting (t_rows (g_tbl s)))) by (apply filter_In; split; [exact Hin|exact Hw]).
        destruct (filter pg_waiting _); [destruct H0|cbn in Hn; lia].
      + pose proof (gi_executing _ _ _ _ _ _ I j Hj He) as Ha. unfold away in Ha. rewrite Hh in Ha. exact Ha.
    - destruct (g_held s) as [|h hs] eqn:Eh.
      + destruct (filter pg_waiting (t_rows (g_tbl s))) as [|r l] eqn:Ew.
        { apply (IH T es s); auto; [unfold pg_to_do; rewrite Ew, Eh; cbn; lia|]. rewrite Eh. exact Hx. }
        assert (Hk : In r (t_rows (g_tbl s)) /\ pg_waiting r = true) by (apply filter_In; rewrite Ew; left; reflexivity).
        destruct Hk as [Hin Hwr]. destruct (gi_read _ _ _ _ _ _ I r Hin) as [j Hj].
        assert (Hw : waiting j) by (apply (label_waiting r j Hj); exact Hwr).
        set (now := Z.max T (j_scheduled_at j + 1000)).
        assert (Hdue : j_scheduled_at j <= pg_time now).
        { etransitivity; [|apply pg_time_mono with (a := j_scheduled_at j + 1000); unfold now; lia].
          unfold pg_time. pose proof (Z.quot_rem' (j_scheduled_at j + 1000 - pg_epoch) 1000).
          pose proof (Z.rem_bound_abs (j_scheduled_at j + 1000 - pg_epoch) 1000). unfold time in *. lia. }
        destruct (due_handed es s now r j Hr Hin Hj Hw Hdue) as [j2 Hl].
        destruct (pg_load now (j_executor j) (g_tbl s)) as [t' res] eqn:El. cbn [snd] in Hl. subst res.
        destruct (load_swaps now (j_executor j) (g_tbl s) t' _ (proj1 (gi_ids _ _ _ _ _ _ I)) (gi_read _ _ _ _ _ _ I) El)
          as [[_ [Hq|[e Hq]]]|[r1 [r' [j1 [Hsw [Hj1 [Hw1 [Hj' Eq]]]]]]]]; [discriminate|discriminate|].
        injection Eq as ->.
        assert (Hs1' : stored s j1) by (exists r1; split; [eapply swapped_in; exact Hsw|exact Hj1]).
        destruct (Hst j1 Hs1' Hw1 (pg_time now)) as [x Hb].
        set (s1 := mk_pgsys t' (g_held s ++ [mk_holding (after_hand_out (pg_time now) j1) (Some x)]) (g_log s) (g_lost s)).
        assert (Hs1 : sstep s (STake now (j_executor j)) = Some s1).
        { unfold pgsys_step. rewrite El, Hb. reflexivity. }
        destruct (IH T (es ++ [STake now (j_executor j)]) s1) as (es' & s' & A1 & A2 & A3 & A4 & A5 & A6).
        * unfold pg_to_do in *. cbn [s1 g_tbl g_held] in *. rewrite Eh, Ew in *. cbn [app length] in *.
          pose proof (to_do_swap _ _ _ _ Hsw) as Ht. rewrite Ew in Ht.
          assert (E1 : pg_waiting r1 = true) by (apply (label_waiting r1 j1 Hj1); exact Hw1).
          assert (E2 : pg_waiting r' = false).
          { destruct (pg_waiting r') eqn:E2; [|reflexivity]. apply (label_waiting r' _ Hj') in E2. destruct E2; discriminate. }
          rewrite E1, E2 in Ht. cbn [length] in Ht. lia.
        * eapply pg_orun_snoc; [exact Hr|exact Logic.I|exact Hs1].
        * intros h Hh. cbn [s1 g_held] in Hh. rewrite Eh in Hh. destruct Hh as [<-|[]]. discriminate.
        * intros j3 [r3 [Hr3 Hj3]] Hw3. cbn [s1 g_tbl] in Hr3. destruct Hsw as [pre [post [E1 ->]]]. cbn [t_rows] in Hr3.
          apply in_mid in Hr3. destruct Hr3 as [->|Hr3].
          -- assert (j3 = after_hand_out (pg_time now) j1) as -> by (eapply represents_fun; eassumption). destruct Hw3; discriminate.
          -- apply Hst; [|exact Hw3]. exists r3. split; [|exact Hj3]. rewrite E1. apply in_mid. auto.
        * exists (STake now (j_executor j) :: es'), s'. split; [econstructor; [exact Logic.I|exact Hs1|exact A1]|].
          split; [constructor; [cbn; unfold now, time in *; lia|exact A2]|]. split; [exact A3|]. split; [exact A4|]. split; [|exact A6].
          rewrite A5. cbn [s1 g_tbl]. eapply ids_swap; [exact Hsw|].
          rewrite (represents_id _ _ Hj'), (represents_id _ _ Hj1). reflexivity.
      + assert (Hxh : h_exec h <> None) by (apply Hx; left; reflexivity).
        destruct h as [hj [x|]]; [|destruct Hxh; reflexivity].
        destruct (gi_held _ _ _ _ _ _ I (mk_holding hj (Some x))) as [j [Hsj [F1 [F2 [F3 [F4 F5]]]]]]; [rewrite Eh; left; reflexivity|].
        destruct (F5 x eq_refl) as [X1 X2]. destruct Hsj as [r [Hin Hj]].
        assert (Hid : r_id r = x_id x) by (rewrite (represents_id _ _ Hj); unfold h_id in *; cbn [h_job] in *; congruence).
        destruct (pg_complete T (x_id x) (g_tbl s)) as [t' res] eqn:Ec.
        assert (Hok : res = Ok tt).
        { pose proof (update_takes true (x_id x) (fun r => Some (put_status "complete" (put_completed_at (Some (pg_time T)) r)))
            (g_tbl s) r (proj1 (gi_ids _ _ _ _ _ _ I)) eq_refl Hin Hid ltac:(discriminate)) as H.
          unfold pg_complete in Ec. rewrite Ec in H. exact H. }
        subst res. unfold pg_complete in Ec.
        destruct (update_swaps _ _ _ _ _ _ (proj1 (gi_ids _ _ _ _ _ _ I)) Ec) as [[_ [e Hq]]|[_ [r1 [r' [Hsw [E1 E2]]]]]]; [discriminate|].
        assert (r1 = r) as ->.
        { eapply (nodup_map_eq r_id); [exact (proj1 (gi_ids _ _ _ _ _ _ I))|eapply swapped_in; exact Hsw|exact Hin|congruence]. }
        injection E2 as <-.
        set (s1 := mk_pgsys t' hs ((x_id x, ODone) :: g_log s) (g_lost s)).
        assert (Hs1 : sstep s (SReport T T T 0 ODone) = Some s1).
        { unfold pgsys_step. rewrite Eh. cbn [nth_error report pg_step]. unfold pg_complete. rewrite Ec. reflexivity. }
        assert (Hwr : pg_waiting r = false).
        { destruct (pg_waiting r) eqn:E0; [|reflexivity]. apply (label_waiting r j Hj) in E0. destruct E0; congruence. }
        destruct (IH T (es ++ [SReport T T T 0 ODone]) s1) as (es' & s' & A1 & A2 & A3 & A4 & A5 & A6).
        * unfold pg_to_do in *. cbn [s1 g_tbl g_held] in *. rewrite Eh in *. cbn [length] in *.
          pose proof (to_do_swap _ _ _ _ Hsw) as Ht. rewrite Hwr in Ht.
          match type of Ht with context [pg_waiting (put_status ?a ?b)] => change (pg_waiting (put_status a b)) with false in Ht end. cbv iota in Ht. lia.
        * eapply pg_orun_snoc; [exact Hr|exact Logic.I|exact Hs1].
        * intros h Hh. apply Hx. right. exact Hh.
        * intros j3 [r3 [Hr3 Hj3]] Hw3. cbn [s1 g_tbl] in Hr3. destruct Hsw as [pre [post [E1' ->]]]. cbn [t_rows] in Hr3.
          apply in_mid in Hr3. destruct Hr3 as [->|Hr3].
          -- apply (label_waiting _ j3 Hj3) in Hw3. discriminate.
          -- apply Hst; [|exact Hw3]. exists r3. split; [|exact Hj3]. rewrite E1'. apply in_mid. auto.
        * exists (SReport T T T 0 ODone :: es'), s'. split; [econstructor; [exact Logic.I|exact Hs1|exact A1]|].
          split; [constructor; [cbn; unfold time in *; repeat split; lia|exact A2]|]. split; [exact A3|]. split; [exact A4|]. split; [|exact A6].
          rewrite A5. cbn [s1 g_tbl]. eapply ids_swap; [exact Hsw|reflexivity].
  Qed.
End S.
