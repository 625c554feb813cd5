(** The unit tests of OwnTests.v pass. *)
From Verif Require Import Base Chrono Types Query Builder FxHash Memory PgRow PgQuery Pg Suite SuiteProofs OwnTests PropsSuite.
Section Clock.
  Variables (B : subject) (s : su_state B).
  Let fair := steady 1 (seconds 1) 0 last_instant.
  Let lazy := rests 0 last_instant.
  Lemma check_passes b k c : b = true -> survives B fair lazy k s c -> survives B fair lazy (check b k) s c.
  Proof. intros ->. auto. Qed.
  Lemma now_passes k c : (forall t, c + 1 <= t <= c + 1000000000 -> 0 <= t <= 253402300799000000000 -> survives B fair lazy (k t) s t) -> survives B fair lazy (Now k) s c.
  Proof. intros H t [H1 H2]. apply H; assumption. Qed.
  Lemma from_now_passes d d' k c : - one_day <= d <= one_day -> 0 <= d' <= one_minute ->
    (forall t, c + 1 <= t <= c + 1000000000 -> 0 <= t <= 253402300799000000000 -> survives B fair lazy (k (t + d + d')) s t) ->
    survives B fair lazy (from_now d d' k) s c.
  Proof.
    unfold one_day, one_minute, ns_per_s. intros Hd Hd' H. apply now_passes. intros t Ht Hr. unfold shift, dt_add.
    rewrite in_dt_ok by lia. rewrite in_dt_ok by lia. now apply H.
  Qed.
  (** A mock job with the window of a day against such a job at another time. *)
  Definition windowed (t0 : time) : enqueuable :=
    mk_enqueuable default_executor (JStr "data"%string) (JStr "metadata"%string) 5 t0 [] 0 (Some (within one_day)).
  Lemma same_passes b t0 t1 id at_ k c :
    (forall t, c + 1 <= t <= c + 1000000000 -> 0 <= t <= 253402300799000000000 ->
       (Z.abs (at_ - t) <? one_day) = b /\ survives B fair lazy k s t) ->
    survives B fair lazy (same_ b (windowed t0) (on_job (set_scheduled_at at_) (into_job t1 id (windowed t0))) k) s c.
  Proof.
    intros H. apply now_passes. intros t Ht Hr. destruct (H t Ht Hr) as [E Hk]. apply check_passes; [|exact Hk].
    change (Bool.eqb (Z.abs (at_ - t) <? one_day) b = true). rewrite E. apply Bool.eqb_reflx.
  Qed.
  Lemma passes_within c : 0 <= c <= last_instant -> survives B fair lazy own_within s c.
  Proof.
    intros Hc. unfold own_within. apply now_passes. intros t0 H0 R0.
    change (with_uniqueness (within one_day) _) with (windowed t0). cbv zeta.
    unfold into_job_.
    apply now_passes. intros t1 H1 R1. apply now_passes. intros t2 H2 R2.
    apply from_now_passes; [unfold one_day, ns_per_s; lia|unfold one_minute, ns_per_s; lia|]. intros t3 H3 R3.
    apply now_passes. intros t4 H4 R4.
    apply from_now_passes; [unfold one_day, ns_per_s; lia|unfold one_minute, ns_per_s; lia|]. intros t5 H5 R5.
    change (into_job t1 42 (windowed t0)) with (on_job (set_scheduled_at t0) (into_job t1 42 (windowed t0))).
    apply same_passes. intros t6 H6 R6. unfold one_day, one_minute, ns_per_s in *. split; [lia|].
    apply same_passes. intros t7 H7 R7. unfold one_day, one_minute, ns_per_s in *. split; [lia|].
    apply same_passes. intros t8 H8 R8. unfold one_day, one_minute, ns_per_s in *. split; [lia|].
    apply now_passes. intros t9 H9 R9.
    apply from_now_passes; [unfold one_day, ns_per_s; lia|unfold one_minute, ns_per_s; lia|]. intros t10 H10 R10.
    apply now_passes. intros t11 H11 R11.
    apply from_now_passes; [unfold one_day, ns_per_s; lia|unfold one_minute, ns_per_s; lia|]. intros t12 H12 R12.
    apply same_passes. intros t13 H13 R13. unfold one_day, one_minute, ns_per_s in *. split; [lia|].
    apply same_passes. intros t14 H14 R14. unfold one_day, one_minute, ns_per_s in *. split; [lia|].
    reflexivity.
  Qed.
  Ltac decide_ := cbn -[Z.add Z.sub Z.eqb Z.ltb Z.leb Z.mul];
    repeat match goal with
      | |- context [?a =? ?b] => first [rewrite (proj2 (Z.eqb_eq a b)) by lia | rewrite (proj2 (Z.eqb_neq a b)) by lia]
      | |- context [?a <? ?b] => first [rewrite (proj2 (Z.ltb_lt a b)) by lia | rewrite (proj2 (Z.ltb_ge a b)) by lia] end;
    reflexivity.
  Lemma passes_query c : 0 <= c <= last_instant -> survives B fair lazy own_query_matches s c.
  Proof.
    intros Hc t [Ht Hr]. unfold last_instant, seconds, ns_per_s in *. unfold shift, dt_add, dt_sub, an_hour, ns_per_s.
    rewrite in_dt_ok by lia. cbn [j_scheduled_at]. rewrite !in_dt_ok by lia. cbn zeta.
    unfold all_match, none_match.
    do 8 (apply check_passes; [decide_|]). reflexivity.
  Qed.
  Lemma passes_key c : 0 <= c <= last_instant -> survives B fair lazy own_by_key s c.
  Proof.
    intros Hc t1 _ t2 _ t3 _ t4 _.
    apply check_passes; [vm_compute; reflexivity|]. intros t5 _. apply check_passes; vm_compute; reflexivity.
  Qed.
  Lemma passes_tags c : 0 <= c <= last_instant -> survives B fair lazy own_query_tags s c.
  Proof.
    subst fair lazy. unfold last_instant, seconds, ns_per_s; cbn [Z.mul Pos.mul]; intro Hc.
    run (idle_postgres (fun _ _ _ => 0)).
  Qed.
  Lemma passes_prune c : 0 <= c <= last_instant -> survives B fair lazy own_prune_spec s c.
  Proof.
    subst fair lazy. unfold last_instant, seconds, ns_per_s; cbn [Z.mul Pos.mul]; intro Hc.
    run (idle_postgres (fun _ _ _ => 0)).
  Qed.
  Lemma passes_spec c : 0 <= c <= last_instant -> survives B fair lazy own_spec s c.
  Proof.
    subst fair lazy. unfold last_instant, seconds, ns_per_s; cbn [Z.mul Pos.mul]; intro Hc.
    run (idle_postgres (fun _ _ _ => 0)).
  Qed.
  Lemma passes_none c : 0 <= c <= last_instant -> survives B fair lazy own_no_criteria s c.
  Proof.
    subst fair lazy. unfold last_instant, seconds, ns_per_s; cbn [Z.mul Pos.mul]; intro Hc.
    run (idle_postgres (fun _ _ _ => 0)).
  Qed.
  Lemma passes_executor c : 0 <= c <= last_instant -> survives B fair lazy own_by_executor s c.
  Proof.
    subst fair lazy. unfold last_instant, seconds, ns_per_s; cbn [Z.mul Pos.mul]; intro Hc.
    run (idle_postgres (fun _ _ _ => 0)).
  Qed.
  Lemma passes_statuses c : 0 <= c <= last_instant -> survives B fair lazy own_by_statuses s c.
  Proof.
    subst fair lazy. unfold last_instant, seconds, ns_per_s; cbn [Z.mul Pos.mul]; intro Hc.
    run (idle_postgres (fun _ _ _ => 0)).
  Qed.

  Lemma passes_queryable : Forall (fun t => forall c, 0 <= c <= last_instant -> survives B fair lazy (snd t) s c) queryable_tests.
  Proof.
    repeat apply Forall_cons; try apply Forall_nil.
    exact passes_query. exact passes_tags. exact passes_prune. exact passes_spec. exact passes_none.
    exact passes_executor. exact passes_key. exact passes_statuses. exact passes_within.
  Qed.
End Clock.

Section Postgres.
  Variable ident : option Z -> option string -> list status -> Z.
  Let passes (q : prog) : Prop := forall c, 0 <= c <= last_instant ->
    survives (postgres ident) (steady 0 (seconds 5) 0 last_instant) (rests 0 last_instant) q tbl_init c.
  Lemma pg_own_load_none : passes own_load_none.
  Proof.
    subst passes. unfold last_instant, seconds, ns_per_s; cbn [Z.mul Pos.mul]; intros c Hc.
    run (idle_postgres ident).
  Qed.
  Lemma pg_own_load_ready : passes own_load_ready.
  Proof.
    subst passes. unfold last_instant, seconds, ns_per_s; cbn [Z.mul Pos.mul]; intros c Hc.
    run (idle_postgres ident).
  Qed.
  Lemma pg_own_load_executing : passes own_load_executing.
  Proof.
    subst passes. unfold last_instant, seconds, ns_per_s; cbn [Z.mul Pos.mul]; intros c Hc.
    run (idle_postgres ident).
  Qed.
  Lemma pg_own_load_retryable : passes own_load_retryable.
  Proof.
    subst passes. unfold last_instant, seconds, ns_per_s; cbn [Z.mul Pos.mul]; intros c Hc.
    run (idle_postgres ident).
  Qed.
  Lemma pg_own_load_past : passes own_load_past.
  Proof.
    subst passes. unfold last_instant, seconds, ns_per_s; cbn [Z.mul Pos.mul]; intros c Hc.
    run (idle_postgres ident).
  Qed.
  Lemma pg_own_load_oldest : passes own_load_oldest.
  Proof.
    subst passes. unfold last_instant, seconds, ns_per_s; cbn [Z.mul Pos.mul]; intros c Hc.
    run (idle_postgres ident).
  Qed.
  Lemma pg_own_enqueue : passes own_enqueue.
  Proof.
    subst passes. unfold last_instant, seconds, ns_per_s; cbn [Z.mul Pos.mul]; intros c Hc.
    run (idle_postgres ident).
  Qed.

  Lemma passes_sqlx : Forall (fun t => passes (snd t)) sqlx_tests.
  Proof.
    repeat apply Forall_cons; try apply Forall_nil.
    exact pg_own_load_none. exact pg_own_load_ready. exact pg_own_load_executing. exact pg_own_load_retryable.
    exact pg_own_load_past. exact pg_own_load_oldest. exact pg_own_enqueue.
  Qed.
End Postgres.

Lemma refuses p m o k c (ticks sleeps : time -> time -> Prop) :
  (forall t, exists m' r, mem_step p t m o = (m', r) /\ m_poisoned m' = true
     /\ (r = RId (Err BadState) \/ r = RUnit (Err BadState) \/ r = RJobs (Err BadState))) ->
  (forall t m', ticks c t -> m_poisoned m' = true -> survives (memory p) ticks sleeps k m' t) ->
  survives (memory p) ticks sleeps (bad_state_ o k) m c.
Proof.
  intros Ho Hk t s' r Ht E. destruct (Ho t) as (m' & r' & E' & Hm & Hr). cbn [su_step memory] in E. rewrite E' in E.
  injection E as <- <-. destruct Hr as [-> |[-> | ->]]; apply Hk; assumption.
Qed.
Lemma passes_bad_state p m id c : m_poisoned m = true -> 0 <= c <= last_instant ->
  survives (memory p) (steady 0 (seconds 5) 0 last_instant) (rests 0 last_instant) (own_bad_state id) m c.
Proof.
  intros Hm _. unfold own_bad_state, tomorrow. intros t [Ht Hr]. unfold shift, dt_add, ns_per_s, last_instant, ns_per_s in *.
  rewrite in_dt_ok by lia. unfold mock_job, raw_job. intros t1 [Ht1 Hr1] t2 [Ht2 Hr2].
  unfold shift, dt_add, ns_per_s in *. rewrite in_dt_ok by lia. clear Ht Hr Ht1 Hr1 Ht2 Hr2.
  do 10 (apply refuses;
    [intros ?; destruct m as [js n subs pa po]; cbn [m_poisoned] in Hm; subst po;
     do 2 eexists; split; [reflexivity|split; [reflexivity|auto]]
    |clear m Hm; intros ? m _ Hm]). reflexivity.
Qed.
