(** Workers driving the Postgres backend: C84. *)
From Coq Require Import Ascii Permutation.
From Verif Require Import Base Chrono Types TypesProofs Query Memory MemSpec MemHist MemInv Samples Codec Builder Runner
  RunnerSpec WorkerProofs SysProofs PropsApi PropsRunner PgRow FxHash Pg PgSpec PgProofs PgOps PropsPg PropsPgRefuse
  PgSys PgSysSpec PgSysProofs.

(** * Lemmas *)

Lemma kept_or_refused e : pg_error_ok e = false <-> refused_error e.
Proof.
  split; [|apply refused_error_spec]. unfold pg_error_ok. intro H. apply andb_false_iff in H. destruct H as [H|H].
  - destruct e as [ty msg]. cbn in H. destruct ty as [| | |s]; try discriminate. eapply re_type; [reflexivity|]. apply not_clean. exact H.
  - apply re_message, not_clean. exact H.
Qed.

Lemma nodup_app {A} (l l' : list A) : NoDup (l ++ l') -> NoDup l /\ NoDup l' /\ (forall x, In x l -> ~ In x l').
Proof.
  induction l as [|a l IH]; cbn; intro H.
  - split; [constructor|]. split; [exact H|]. intros x [].
  - inversion H as [|? ? H1 H2]; subst. destruct (IH H2) as [I1 [I2 I3]]. split; [|split; [exact I2|]].
    + constructor; [intro Hi; apply H1; apply in_or_app; auto|exact I1].
    + intros x [<-|Hx]; [intro Hi; apply H1; apply in_or_app; auto|exact (I3 x Hx)].
Qed.

(** The operations that are reports. *)
Lemma report_is show now1 now2 x o op : report show now1 now2 x o = Some op ->
  op = OpComplete (x_id x) \/ (exists e, op = OpCancelled (x_id x) e) \/ (exists at_, op = OpSnoozed (x_id x) at_)
  \/ (exists e, op = OpDiscarded (x_id x) e) \/ (exists at_ e, op = OpRetryable (x_id x) at_ e).
Proof.
  assert (He : forall e, report_error now1 now2 x e = Some op ->
    (exists e, op = OpDiscarded (x_id x) e) \/ (exists at_ e, op = OpRetryable (x_id x) at_ e)).
  { intros e H. unfold report_error in H. destruct (x_final x); [injection H as <-; eauto|].
    destruct (dt_add now1 (x_delay x)); [|discriminate]. destruct (dt_add now2 (x_delay x)); [|discriminate]. injection H as <-. eauto. }
  intro H. destruct o as [|reason|d|e| |pl text|text]; cbn [report] in H.
  - injection H as <-. auto.
  - destruct reason; [|discriminate]. injection H as <-. eauto.
  - destruct (dt_add now1 d); [|discriminate]. injection H as <-. eauto.
  - destruct e; [|discriminate]. apply He in H. tauto.
  - destruct (x_timeout x); [|discriminate]. apply He in H. tauto.
  - apply He in H. tauto.
  - apply He in H. tauto.
Qed.
Lemma report_shape show now1 now2 x o op : report show now1 now2 x o = Some op ->
  forall ident now t, exists res, snd (pg_step ident now t op) = RUnit res.
Proof.
  intros H ident now t.
  assert (G : forall y : tbl * result unit, exists res, snd (let (t', r) := y in (t', RUnit r)) = RUnit res).
  { intros [t' r]. exists r. reflexivity. }
  destruct (report_is _ _ _ _ _ _ H) as [->|[[e ->]|[[at_ ->]|[[e ->]|[at_ [e ->]]]]]]; cbn [pg_step]; apply G.
Qed.
Lemma report_decided show now1 now2 x o op now : report show now1 now2 x o = Some op -> refused now op \/ ~ refused now op.
Proof.
  intro H.
  assert (He : forall e, refused_error e \/ ~ refused_error e).
  { intro e. rewrite <- (kept_or_refused e). destruct (pg_error_ok e); [right; discriminate|left; reflexivity]. }
  assert (Ht : forall at_, early at_ \/ ~ early at_) by (intro at_; unfold early, time in *; lia).
  destruct (report_is _ _ _ _ _ _ H) as [->|[[e ->]|[[at_ ->]|[[e ->]|[at_ [e ->]]]]]].
  - right. intro X. inversion X.
  - destruct (He e); [left; constructor; assumption|right; intro X; inversion X; contradiction].
  - destruct (Ht at_); [left; constructor; assumption|right; intro X; inversion X; contradiction].
  - destruct (He e); [left; constructor; assumption|right; intro X; inversion X; contradiction].
  - destruct (He e) as [|He']; [left; constructor; auto|]. destruct (Ht at_); [left; constructor; auto|].
    right; intro X; inversion X; tauto.
Qed.

Section Held.
  Context {D M : Type}.
  Variable c : codec D M.
  Variable fns : executor_fns D M.
  Variable show : Z -> string.
  Variable ident : option Z -> option string -> list status -> Z.

  (** What a worker executes is what the job it holds makes it execute. *)
  Definition begun (s : pgsys) : Prop :=
    forall h, In h (g_held s) -> forall x, h_exec h = Some x <-> begin_job c fns (h_job h) = Spawned x.
  Lemma begun_step s ev s' : begun s -> pgsys_step c fns show ident s ev = Some s' -> begun s'.
  Proof.
    intros B Hs. destruct ev as [now o|now ex|n1 n2 now i o]; cbn [pgsys_step] in Hs.
    - injection Hs as <-. exact B.
    - destruct (pg_load now ex (g_tbl s)) as [t' [[j|]|e|]]; injection Hs as <-; try exact B.
      intros h Hh. cbn [g_held] in Hh. apply in_app_or in Hh. destruct Hh as [Hh|[<-|[]]]; [exact (B h Hh)|].
      intro x. cbn [h_job h_exec]. destruct (begin_job c fns j); split; intro E; try discriminate; injection E as <-; reflexivity.
    - destruct (nth_error (g_held s) i) as [[hj [x|]]|]; try discriminate.
      destruct (report show n1 n2 x o); [|discriminate]. destruct (pg_step ident now (g_tbl s) m) as [t' res].
      assert (Hd : forall l, (forall h, In h l -> In h (g_held s)) -> forall t lg lo, begun (mk_pgsys t l lg lo)).
      { intros l Hl t lg lo h Hh. apply (B h). apply Hl. exact Hh. }
      assert (Hin : forall h, In h (drop_nth i (g_held s)) -> In h (g_held s)) by (intros h Hh; eapply drop_nth_in; exact Hh).
      destruct res as [[j|e|]|[[]|e|]|[j|e|]|[j|e|]]; injection Hs as <-; apply Hd; exact Hin.
  Qed.
  Lemma begun_run s es s' : begun s -> pg_orderly_run c fns show ident s es s' -> begun s'.
  Proof. intros B H. induction H as [s|s ev s1 es s' _ Hs _ IH]; [exact B|]. apply IH. eapply begun_step; eassumption. Qed.

  Lemma orderly_runs s es s' : pg_orderly_run c fns show ident s es s' -> pgsys_run c fns show ident s es = Some s'.
  Proof. intro H. induction H as [s|s ev s1 es s' _ Hs _ IH]; cbn; [reflexivity|]. rewrite Hs. exact IH. Qed.

  (** The database takes the report on an executing job unless a value is refused. *)
  Lemma report_taken es s now1 now2 now x o op j :
    ginv c fns show ident es s -> stored s j -> j_status j = Executing -> x_id x = j_id j ->
    report show now1 now2 x o = Some op -> ~ refused now op -> snd (pg_step ident now (g_tbl s) op) = RUnit (Ok tt).
  Proof.
    intros I [r [Hr Hj]] Hst Hid Hop Hok. pose proof (proj1 (gi_ids _ _ _ _ _ _ I)) as Hn.
    assert (Hs : stored s j) by (exists r; auto).
    destruct (gi_fine _ _ _ _ _ _ I j Hs) as [mx [_ [Hm F]]].
    pose proof (fi_exec _ _ _ _ _ F Hst) as Fe. pose proof (fi_range _ _ _ _ _ F) as Fr.
    assert (Hri : r_id r = x_id x) by (rewrite (represents_id _ _ Hj); auto).
    assert (Hgo : forall ok g, ok = true -> g r <> None ->
      snd (let (t1, r1) := pg_update_by_id ok (x_id x) g (g_tbl s) in (t1, RUnit r1)) = RUnit (Ok tt)).
    { intros ok g H1 H2. pose proof (update_takes ok (x_id x) g (g_tbl s) r Hn H1 Hr Hri H2) as H.
      destruct (pg_update_by_id ok (x_id x) g (g_tbl s)) as [t1 r1]. cbn in *. congruence. }
    assert (Ht : forall at_, ~ early at_ -> time_ok at_ = true).
    { intros at_ H. destruct (time_ok at_) eqn:E; [reflexivity|]. apply early_refused in E. contradiction. }
    assert (He : forall e, ~ refused_error e -> pg_error_ok e = true).
    { intros e H. destruct (pg_error_ok e) eqn:E; [reflexivity|]. apply kept_or_refused in E. contradiction. }
    assert (Herr : forall e, report_error now1 now2 x e = Some op -> snd (pg_step ident now (g_tbl s) op) = RUnit (Ok tt)).
    { intros e H. unfold report_error in H. destruct (x_final x).
      - injection H as <-. apply Hgo; [|discriminate]. apply He. intro Hx. apply Hok. constructor. exact Hx.
      - destruct (dt_add now1 (x_delay x)); [|discriminate]. destruct (dt_add now2 (x_delay x)) as [at_|]; [|discriminate].
        injection H as <-. apply Hgo; [|discriminate]. apply andb_true_iff. split.
        + apply He. intro Hx. apply Hok. constructor. auto.
        + apply Ht. intro Hx. apply Hok. constructor. auto. }
    destruct o as [|reason|d|e| |pl text|text]; cbn [report] in Hop.
    - injection Hop as <-. apply Hgo; [reflexivity|discriminate].
    - destruct reason as [reason|]; [|discriminate]. injection Hop as <-. apply Hgo; [|discriminate].
      apply He. intro Hx. apply Hok. constructor. exact Hx.
    - destruct (dt_add now1 d) as [at_|]; [|discriminate]. injection Hop as <-. apply Hgo.
      + apply Ht. intro Hx. apply Hok. constructor. exact Hx.
      + unfold int4. row_fields Hj. assert (E : in_i32 (r_attempt r - 1) = true) by (apply in_i32_spec; lia). rewrite E. discriminate.
    - destruct e as [e|]; [|discriminate]. eapply Herr; exact Hop.
    - destruct (x_timeout x); [|discriminate]. eapply Herr; exact Hop.
    - eapply Herr; exact Hop.
    - eapply Herr; exact Hop.
  Qed.
End Held.
Lemma begun_init {D M} (c : codec D M) fns : begun c fns pgsys_init.
Proof. intros h []. Qed.

(** * C84 Job life cycle on Postgres *)

(** Every row can be read as a job, no two workers hold the same job, and the executing jobs are
    exactly those that are held and those whose report was refused. *)
Theorem C84_life_cycle_postgres : forall D M (c : codec D M) fns show ident es s,
  pg_orderly_run c fns show ident pgsys_init es s ->
  (forall r, In r (t_rows (g_tbl s)) -> exists j, represents r j)
  /\ NoDup (map (fun h => j_id (h_job h)) (g_held s))
  /\ (forall id, held s id -> ~ lost s id)
  /\ (forall id, held s id \/ lost s id <-> exists j, stored s j /\ j_id j = id /\ j_status j = Executing)
  /\ forall j, stored s j ->
       (waiting j -> 0 <= j_attempt j < j_max_attempts j)
       /\ (j_status j = Executing -> 1 <= j_attempt j <= j_max_attempts j)
       /\ (j_status j = Discarded -> j_attempt j = j_max_attempts j)
       /\ (finished j -> 0 <= j_attempt j <= j_max_attempts j)
       /\ j_max_attempts j <= 65535
       /\ timestamps_match j
       /\ j_attempt j = pg_results (j_id j) s + (if status_eq_dec (j_status j) Executing then 1 else 0).
Proof.
  intros D M c fns show ident es s Hr. pose proof (run_ginv c fns show ident es s Hr) as I.
  pose proof (gi_nodup _ _ _ _ _ _ I) as Hn. unfold away in Hn.
  split; [exact (gi_read _ _ _ _ _ _ I)|]. split; [exact (proj1 (nodup_app _ _ Hn))|]. split.
  { intros id [h [Hh <-]] Hl. apply (proj2 (proj2 (nodup_app _ _ Hn)) (j_id (h_job h))); [|exact Hl].
    change (In (h_id h) (map h_id (g_held s))). apply in_map. exact Hh. }
  split.
  - intro id. split.
    + intros [[h [Hh <-]]|Hl]; [|exact (gi_lost _ _ _ _ _ _ I id Hl)].
      destruct (gi_held _ _ _ _ _ _ I h Hh) as [j [Hj [F1 [F2 _]]]]. exists j. auto.
    + intros [j [Hj [<- Hst]]]. pose proof (gi_executing _ _ _ _ _ _ I j Hj Hst) as H. unfold away in H. apply in_app_or in H.
      destruct H as [H|H]; [left|right; exact H]. apply in_map_iff in H. destruct H as [h [E Hh]]. exists h. auto.
  - intros j Hj. destruct (gi_fine _ _ _ _ _ _ I j Hj) as [mx [_ [Hm [F1 F2 F3 F4 F5 F6 F7 F8 F9]]]].
    rewrite F2. split; [intro Hw; specialize (F5 Hw); lia|]. split; [intro He; specialize (F6 He); lia|].
    split; [exact F7|]. split; [intros _; lia|]. split; [exact Hm|]. split; [exact F8|]. rewrite F1, is_status_eq. reflexivity.
Qed.
Print Assumptions C84_life_cycle_postgres.

(** Executions, counting those whose report was refused, never exceed the attempts allowed. *)
Theorem C84_attempts_postgres : forall D M (c : codec D M) fns show ident es s id,
  pg_orderly_run c fns show ident pgsys_init es s ->
  executions id s = 0 \/ exists m, pg_allowed c fns show ident es id m /\ executions id s <= m.
Proof.
  intros D M c fns show ident es s id Hr. pose proof (run_ginv c fns show ident es s Hr) as I.
  unfold executions. pose proof (proj1 (proj2 (nodup_app _ _ (gi_nodup _ _ _ _ _ _ I)))) as Hn.
  assert (Hc : Z.of_nat (length (filter (Z.eqb id) (g_lost s))) = if in_dec Z.eq_dec id (g_lost s) then 1 else 0).
  { clear -Hn. induction (g_lost s) as [|k l IH]; [reflexivity|]. inversion Hn as [|? ? H1 H2]; subst. specialize (IH H2). cbn [filter].
    destruct (Z.eqb_spec id k) as [->|Hk].
    - cbn [length]. rewrite Nat2Z.inj_succ, IH. destruct (in_dec Z.eq_dec k l); [contradiction|].
      destruct (in_dec Z.eq_dec k (k :: l)) as [|H]; [reflexivity|]. destruct H. left. reflexivity.
    - rewrite IH. destruct (in_dec Z.eq_dec id l) as [Hi|Hi], (in_dec Z.eq_dec id (k :: l)) as [Hj|Hj]; try reflexivity.
      + destruct Hj. right. exact Hi.
      + destruct Hj as [Hj|Hj]; congruence. }
  rewrite Hc. destruct (in_dec Z.eq_dec id (g_lost s)) as [Hl|Hl].
  - right. destruct (gi_lost _ _ _ _ _ _ I id Hl) as [j [Hj [<- Hst]]].
    destruct (gi_fine _ _ _ _ _ _ I j Hj) as [mx [B [_ F]]]. exists mx. split; [exact B|].
    pose proof (fi_range _ _ _ _ _ F). pose proof (fi_attempt _ _ _ _ _ F) as Fa. rewrite is_status_eq in Fa.
    destruct (status_eq_dec (j_status j) Executing); [lia|contradiction].
  - rewrite Z.add_0_r. exact (gi_bound _ _ _ _ _ _ I id).
Qed.
Print Assumptions C84_attempts_postgres.

(** As C18, for Postgres: once discarded, a job that keeps failing was discarded at its last attempt. *)
Theorem C84_discarded_at_last_postgres : forall D M (c : codec D M) fns show ident es s j,
  pg_orderly_run c fns show ident pgsys_init es s -> stored s j -> left_alone (j_id j) es ->
  (forall o, In o (pg_outcomes (j_id j) s) -> is_failure o = true \/ is_snooze o = true) ->
  exists m, pg_allowed c fns show ident es (j_id j) m /\ j_max_attempts j = m /\ 1 <= m <= 65535
    /\ pg_failures (j_id j) s <= m
    /\ (j_status j = Discarded <-> pg_failures (j_id j) s = m)
    /\ (pg_failures (j_id j) s < m <-> waiting j \/ j_status j = Executing)
    /\ map je_attempt (j_errors j) = map Z.of_nat (seq 1 (Z.to_nat (pg_failures (j_id j) s))).
Proof.
  intros D M c fns show ident es s j Hr Hj Hal Hout. pose proof (run_ginv c fns show ident es s Hr) as I.
  destruct (gi_fine _ _ _ _ _ _ I j Hj) as [mx [B [Hmx [F1 F2 F3 F4 F5 F6 F7 F8 F9]]]].
  destruct (F9 Hal) as [A1 [A2 [A3 A4]]].
  assert (Hrf : pg_results (j_id j) s = pg_failures (j_id j) s).
  { unfold pg_results, pg_failures. f_equal. f_equal. clear -Hout. induction (pg_outcomes (j_id j) s) as [|o l IH]; [reflexivity|].
    cbn. assert (H : is_failure o = true \/ is_snooze o = true) by (apply Hout; left; reflexivity).
    rewrite IH by (intros x Hx; apply Hout; right; exact Hx).
    destruct o; cbn in *; try reflexivity; destruct H; discriminate. }
  rewrite !is_status_eq in *.
  assert (Hm : 1 <= mx).
  { destruct B as [es1 [now [e [es2 [s1 [_ [_ [_ [_ [Hb ->]]]]]]]]]]. unfold reruns. lia. }
  assert (N1 : j_status j <> Complete) by (intro E; rewrite E in A3; cbn in A3; lia).
  assert (N2 : j_status j <> Cancelled) by (intro E; rewrite E in A3; cbn in A3; lia).
  assert (Z1 : b2z (is_status Complete j) = 0).
  { rewrite is_status_eq. destruct (status_eq_dec (j_status j) Complete); [contradiction|reflexivity]. }
  exists mx. split; [exact B|]. split; [exact F2|]. split; [lia|].
  rewrite <- Hrf. unfold waiting in *.
  assert (Hle : pg_results (j_id j) s <= mx).
  { destruct (status_eq_dec (j_status j) Executing); lia. }
  split; [exact Hle|]. rewrite <- !is_status_eq in A2. rewrite Z1, Z.sub_0_r in A2.
  split; [|split; [|exact A2]].
  - clear F9 A1 A2 A3 A4. destruct (j_status j) eqn:Est; cbn in F1; try contradiction;
      (split; intro Hs; try discriminate; try reflexivity);
      try (specialize (F5 (or_introl eq_refl))); try (specialize (F5 (or_intror eq_refl)));
      try (specialize (F7 eq_refl)); lia.
  - clear F9 A1 A2 A3 A4. destruct (j_status j) eqn:Est; cbn in F1; try contradiction; (split; intro Hs; auto);
      try (specialize (F5 (or_introl eq_refl))); try (specialize (F5 (or_intror eq_refl)));
      try (specialize (F6 eq_refl)); try (specialize (F7 eq_refl)); try lia.
    destruct Hs as [[Hs|Hs]|Hs]; discriminate.
Qed.
Print Assumptions C84_discarded_at_last_postgres.

(** A hand-out is always possible.  If a job comes out of the backend, a worker holds it from then on,
    executing it if it decodes and the executor's own functions answer; nothing else changes. *)
Theorem C84_hand_out_postgres : forall D M (c : codec D M) fns show ident s now ex,
  exists s', pgsys_step c fns show ident s (STake now ex) = Some s'
    /\ g_tbl s' = fst (pg_step ident now (g_tbl s) (OpLoad ex)) /\ g_log s' = g_log s /\ g_lost s' = g_lost s
    /\ (((forall j, snd (pg_step ident now (g_tbl s) (OpLoad ex)) <> RJob (Ok (Some j))) /\ g_held s' = g_held s)
        \/ exists j h, snd (pg_step ident now (g_tbl s) (OpLoad ex)) = RJob (Ok (Some j))
             /\ g_held s' = g_held s ++ [h] /\ h_job h = j
             /\ (h_exec h <> None <-> runnable c fns j)).
Proof.
  intros D M c fns show ident s now ex. cbn [pgsys_step pg_step].
  destruct (pg_load now ex (g_tbl s)) as [t' [[j|]|e|]]; eexists; (split; [reflexivity|]); cbn [fst snd g_tbl g_held g_log g_lost];
    (split; [reflexivity|]); (split; [reflexivity|]); (split; [reflexivity|]);
    try (left; split; [intro j0; discriminate|reflexivity]).
  right. exists j. eexists. split; [reflexivity|]. split; [reflexivity|]. split; [reflexivity|]. cbn [h_exec].
  rewrite <- (begin_runnable c fns show j). destruct (begin_job c fns j) as [x| |].
  - split; [eauto|discriminate].
  - split; [congruence|intros [x H]; discriminate].
  - split; [congruence|intros [x H]; discriminate].
Qed.
Print Assumptions C84_hand_out_postgres.

(** Every report is the right one for the job held and the outcome.  Unless it carries a value the
    database refuses, it is carried out; if it does, nothing is stored and the job is lost.  Either
    way the worker holds the job no longer. *)
Theorem C84_report_postgres : forall D M (c : codec D M) fns show ident es s now1 now2 now i o s',
  pg_orderly_run c fns show ident pgsys_init es s ->
  pgsys_step c fns show ident s (SReport now1 now2 now i o) = Some s' ->
  exists h l1 l2 t op,
    g_held s = l1 ++ h :: l2 /\ length l1 = i /\ g_held s' = l1 ++ l2
    /\ typed_of_stored c (h_job h) = ROk t /\ to_report fns show (h_job h) t now1 now2 o op
    /\ ((refused now op /\ g_tbl s' = g_tbl s /\ g_log s' = g_log s /\ g_lost s' = j_id (h_job h) :: g_lost s)
        \/ (~ refused now op /\ snd (pg_step ident now (g_tbl s) op) = RUnit (Ok tt)
            /\ g_tbl s' = fst (pg_step ident now (g_tbl s) op)
            /\ g_log s' = (j_id (h_job h), o) :: g_log s /\ g_lost s' = g_lost s)).
Proof.
  intros D M c fns show ident es s now1 now2 now i o s' Hr Hs. pose proof (run_ginv c fns show ident es s Hr) as I.
  pose proof (begun_run c fns show ident _ _ _ (begun_init c fns) Hr) as Hb.
  cbn [pgsys_step] in Hs. destruct (nth_error (g_held s) i) as [[hj [x|]]|] eqn:En; try discriminate.
  destruct (report show now1 now2 x o) as [op|] eqn:Er; [|discriminate].
  pose proof (nth_error_In _ _ En) as Hin. pose proof (proj1 (Hb _ Hin x) eq_refl) as Hbx. cbn [h_job] in Hbx.
  destruct (begin_spawned c fns show hj x Hbx) as [t [Ht [_ [_ [Xid _]]]]].
  destruct (gi_held _ _ _ _ _ _ I _ Hin) as [j [Hj [F1 [F2 _]]]]. cbn [h_id h_job] in F1.
  destruct (nth_error_split _ _ En) as [l1 [l2 [El Hl]]].
  assert (Ed : drop_nth i (g_held s) = l1 ++ l2).
  { rewrite El, <- Hl. clear. induction l1 as [|a l1 IH]; [reflexivity|]. cbn. f_equal. exact IH. }
  exists (mk_holding hj (Some x)), l1, l2, t, op. cbn [h_job].
  pose proof (report_decided show now1 now2 x o op now Er) as Hd.
  assert (Xj : x_id x = j_id j) by (rewrite F1; exact Xid).
  split; [exact El|]. split; [exact Hl|].
  destruct Hd as [Hd|Hd].
  - destruct (C76_refused ident now (g_tbl s) op Hd) as [H1 H2].
    destruct (report_shape show now1 now2 x o op Er ident now (g_tbl s)) as [res Hres].
    destruct (pg_step ident now (g_tbl s) op) as [t' res'] eqn:Es. cbn [fst snd] in *. subst t' res'.
    assert (res = Err BadState) as -> by (destruct H2 as [H2|[H2|[H2|H2]]]; try discriminate; congruence).
    injection Hs as <-. cbn [g_held g_tbl g_log g_lost].
    split; [exact Ed|]. split; [exact Ht|]. split; [eapply report_to_report; eassumption|].
    left. rewrite <- Xid. auto.
  - pose proof (report_taken c fns show ident es s now1 now2 now x o op j I Hj F2 Xj Er Hd) as Hok.
    destruct (pg_step ident now (g_tbl s) op) as [t' res'] eqn:Es. cbn [snd] in Hok. subst res'.
    injection Hs as <-. cbn [g_held g_tbl g_log g_lost fst snd].
    split; [exact Ed|]. split; [exact Ht|]. split; [eapply report_to_report; eassumption|].
    right. rewrite <- Xid. auto.
Qed.
Print Assumptions C84_report_postgres.

(** A worker can report any outcome that does not leave the range of dates. *)
Theorem C84_can_report_postgres : forall D M (c : codec D M) fns show ident s now1 now2 now i o h x,
  nth_error (g_held s) i = Some h -> h_exec h = Some x -> reportable x now1 now2 o -> (o = OElapsed -> x_timeout x <> None) ->
  exists s', pgsys_step c fns show ident s (SReport now1 now2 now i o) = Some s'.
Proof.
  intros D M c fns show ident s now1 now2 now i o h x Hn Hx Hr Ht. cbn [pgsys_step]. rewrite Hn. destruct h as [hj hx]. cbn in Hx. subst hx.
  destruct (reportable_some show x now1 now2 o Hr Ht) as [op ->].
  destruct (pg_step ident now (g_tbl s) op) as [t' res]. destruct res as [[j|e|]|[[]|e|]|[j|e|]|[j|e|]]; eauto.
Qed.
Print Assumptions C84_can_report_postgres.

(** An operation from outside goes to the table and nowhere else. *)
Theorem C84_outside_postgres : forall D M (c : codec D M) fns show ident s now o,
  exists s', pgsys_step c fns show ident s (SOp now o) = Some s'
    /\ g_tbl s' = fst (pg_step ident now (g_tbl s) o) /\ g_held s' = g_held s /\ g_log s' = g_log s /\ g_lost s' = g_lost s.
Proof. intros D M c fns show ident s now o. eexists. split; [reflexivity|]. auto. Qed.
Print Assumptions C84_outside_postgres.

(** A lost job stays executing in every later state of every orderly history, and nobody holds it. *)
Theorem C40_lost_report_refuted : forall D M (c : codec D M) fns show ident es1 s1 id es2 s2,
  pg_orderly_run c fns show ident pgsys_init es1 s1 -> lost s1 id -> pg_orderly_run c fns show ident s1 es2 s2 ->
  ~ held s2 id /\ exists j, stored s2 j /\ j_id j = id /\ j_status j = Executing.
Proof.
  intros D M c fns show ident es1 s1 id es2 s2 H1 Hl H2.
  assert (Hl2 : lost s2 id).
  { clear H1. induction H2 as [s|s ev s0 es s' Ho Hs H IH]; [exact Hl|]. apply IH. clear -Hl Hs. unfold lost in *.
    destruct ev as [now o|now ex|n1 n2 now i o]; cbn [pgsys_step] in Hs.
    - injection Hs as <-. exact Hl.
    - destruct (pg_load now ex (g_tbl s)) as [t' [[j|]|e|]]; injection Hs as <-; exact Hl.
    - destruct (nth_error (g_held s) i) as [[hj [x|]]|]; try discriminate.
      destruct (report show n1 n2 x o); [|discriminate]. destruct (pg_step ident now (g_tbl s) m) as [t' res].
      destruct res as [[j|e|]|[[]|e|]|[j|e|]|[j|e|]]; injection Hs as <-; cbn; auto. }
  pose proof (ginv_run c fns show ident es2 es1 s1 s2 H1 (run_ginv c fns show ident es1 s1 H1) H2) as I.
  split; [|exact (gi_lost _ _ _ _ _ _ I id Hl2)].
  intros [h [Hh <-]]. apply (proj2 (proj2 (nodup_app _ _ (gi_nodup _ _ _ _ _ _ I))) (j_id (h_job h))); [|exact Hl2].
  change (In (h_id h) (map h_id (g_held s2))). apply in_map. exact Hh.
Qed.
Print Assumptions C40_lost_report_refuted.

(** Two workers on Postgres: a failure, a cancellation of a waiting job, a snooze, a success, a rerun,
    a prune, a timeout, and a failure whose message has a zero byte. *)
Definition pg_events : list sevent :=
  [ SOp (1 * ms) (OpEnqueue (req mail 0 (5 * ms))); SOp (2 * ms) (OpEnqueue (req mail 0 (6 * ms)));
    SOp (3 * ms) (OpEnqueue (req mail 0 (7 * ms)));
    STake (10 * ms) mail; STake (11 * ms) mail;
    SReport (20 * ms) (20 * ms) (21 * ms) 0 (OError (Some ("custom"%string, "boom"%string)));
    SOp (22 * ms) (OpCancelled 3 stop); SReport (30 * ms) (30 * ms) (31 * ms) 0 (OSnooze (5 * ms)); STake (40 * ms) mail;
    SReport (50 * ms) (50 * ms) (51 * ms) 0 ODone;
    SOp (60 * ms) (OpRerun 2); STake (1100 * ms) mail; STake (1200 * ms) mail;
    SOp (1300 * ms) (OpPrune (mk_prune_spec Cancelled (MaxLength 0) (Except [])));
    SReport (1400 * ms) (1401 * ms) (1402 * ms) 1 OElapsed;
    SReport (1500 * ms) (1501 * ms) (1502 * ms) 0 (OPanic (PText zero_text) "task panicked") ].
Ltac pg_orderly_step := eapply por_cons; [ | vm_compute; reflexivity | ].
Ltac stored_in H :=
  let r := fresh in let Hr := fresh in let Hj := fresh in
  destruct H as [r [Hr Hj]]; cbn in Hr;
  repeat (destruct Hr as [<-|Hr]; [apply represents_iff in Hj; vm_compute in Hj; injection Hj as <-|]); try destruct Hr.
Lemma pg_events_run : exists s, pg_orderly_run text_codec mail_fns shown fx_identifier pgsys_init pg_events s.
Proof.
  eexists. unfold pg_events.
  assert (Hq : forall t prio, 1 <= eq_max_attempts (req mail prio t) <= 65535 /\ keeps_attempts (req mail prio t)).
  { intros t prio. split; [cbn; lia|]. intros uq r H. discriminate. }
  pg_orderly_step. { apply Hq. }
  pg_orderly_step. { apply Hq. }
  pg_orderly_step. { apply Hq. }
  pg_orderly_step. { exact Logic.I. }
  pg_orderly_step. { exact Logic.I. }
  pg_orderly_step. { exact Logic.I. }
  pg_orderly_step. { intros j Hj Hid. stored_in Hj; try discriminate. left. reflexivity. }
  pg_orderly_step. { exact Logic.I. }
  pg_orderly_step. { exact Logic.I. }
  pg_orderly_step. { exact Logic.I. }
  pg_orderly_step. { split; [unfold ms; lia|]. intros j Hj Hid. stored_in Hj; try discriminate. cbn. split; [discriminate|lia]. }
  pg_orderly_step. { exact Logic.I. }
  pg_orderly_step. { exact Logic.I. }
  pg_orderly_step. { discriminate. }
  pg_orderly_step. { exact Logic.I. }
  pg_orderly_step. { exact Logic.I. }
  apply por_nil.
Qed.
(** The failure of the second job is unrecorded. *)
Example C84_example : exists s, pg_orderly_run text_codec mail_fns shown fx_identifier pgsys_init pg_events s
  /\ pgsys_run text_codec mail_fns shown fx_identifier pgsys_init pg_events = Some s
  /\ map (fun r => (r_id r, r_status r, r_attempt r, r_max_attempts r)) (t_rows (g_tbl s))
     = [(1, "retryable"%string, 2, 3); (2, "executing"%string, 2, 4)]
  /\ g_held s = [] /\ lost s 2 /\ executions 1 s = 2 /\ executions 2 s = 2.
Proof.
  destruct pg_events_run as [s H]. exists s. split; [exact H|]. apply orderly_runs in H. split; [exact H|].
  revert H. vm_compute. intro H. injection H as <-. repeat (split; [reflexivity|]). cbn. auto.
Qed.
Example C40_lost_report_example : exists s, pg_orderly_run text_codec mail_fns shown fx_identifier pgsys_init pg_events s /\ lost s 2.
Proof. destruct C84_example as [s [H [_ [_ [_ [Hl _]]]]]]. exists s. auto. Qed.

Definition pg_failing_events : list sevent :=
  SOp 1 (OpEnqueue (req mail 0 5)) :: failing 100000 1
  ++ [STake 5000000000 mail; SReport 5000000001 5000000001 5000000002 0 (OSnooze 7)] ++ failing 6000000000 2.
Example C84_failing_example : exists s, pg_orderly_run text_codec mail_fns shown fx_identifier pgsys_init pg_failing_events s
  /\ exists j, stored s j /\ left_alone (j_id j) pg_failing_events
    /\ (forall o, In o (pg_outcomes (j_id j) s) -> is_failure o = true \/ is_snooze o = true)
    /\ j_status j = Discarded /\ length (j_errors j) = 3%nat.
Proof.
  eexists. split.
  { unfold pg_failing_events, failing. cbn [flat_map seq app].
    pg_orderly_step. { split; [cbn; lia|]. intros uq r H. discriminate. }
    do 8 (pg_orderly_step; [exact Logic.I|]). apply por_nil. }
  eexists. split. { eexists. split; [left; reflexivity|]. apply represents_iff. vm_compute. reflexivity. }
  split.
  { intros now o H. unfold pg_failing_events, failing in H. cbn [flat_map seq app In] in H.
    repeat (destruct H as [H|H]; [try discriminate; injection H as <- <-; exact Logic.I|]). destruct H. }
  split; [|split; reflexivity].
  intros o H. vm_compute in H. repeat (destruct H as [<-|H]; [auto|]). destruct H.
Qed.
(** A report is refused, and another taken, in the history above. *)
Example C84_report_example : exists es s s1 s2,
  pg_orderly_run text_codec mail_fns shown fx_identifier pgsys_init es s
  /\ pgsys_step text_codec mail_fns shown fx_identifier s (SReport (9 * ms) (9 * ms) (9 * ms) 0 (OPanic (PText zero_text) "")) = Some s1
  /\ pgsys_step text_codec mail_fns shown fx_identifier s (SReport (9 * ms) (9 * ms) (9 * ms) 0 (OPanic (PText "zero") "")) = Some s2
  /\ g_lost s1 = [1] /\ g_log s1 = [] /\ g_lost s2 = [] /\ g_log s2 = [(1, OPanic (PText "zero") "")]
  /\ exists h x, nth_error (g_held s) 0 = Some h /\ h_exec h = Some x /\ reportable x (9 * ms) (9 * ms) (OPanic (PText "zero") "").
Proof.
  exists [SOp (1 * ms) (OpEnqueue (req mail 0 (5 * ms))); STake (6 * ms) mail]. do 3 eexists. split.
  { pg_orderly_step. { split; [cbn; lia|]. intros uq r H. discriminate. }
    pg_orderly_step. { exact Logic.I. } apply por_nil. }
  split; [vm_compute; reflexivity|]. split; [vm_compute; reflexivity|].
  repeat (split; [reflexivity|]). do 2 eexists. split; [reflexivity|]. split; [reflexivity|].
  split; [discriminate|]. intros _. unfold ms, dt_min, dt_max, ns_per_s. cbn [x_delay]. lia.
Qed.
