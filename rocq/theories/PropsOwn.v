(** C88, C89: the project's own unit tests, for every draw of the random generator and every clock. *)
From Coq Require Import SpecFloat Reals Lra.
From Flocq Require Import Core BinarySingleNaN.
From Verif Require Import Base Chrono Types Query Builder Codec FxHash Memory PgRow PgQuery Pg Suite SuiteProofs
  OwnTests OwnProofs PropsSuite Samples Backoff BackoffProofs BackoffFloat.
From Verif Require Testing.
Open Scope Z_scope.

(** * C88 The tests of backoff.rs *)

(** Whatever is drawn, the delay for the attempt is computed and meets the assertion. *)
Definition always (b : backoff_strategy) (i : Z) (P : delta -> Prop) : Prop :=
  forall p u, exists d, backoff p b i u = Some d /\ P d.
Definition secs (n : Z) : delta := n * 1000000000.
Definition mins (n : Z) : delta := secs (60 * n).
(** [a as f64] and the literals 0.9 and 1.1. *)
Definition f64_0_9 : f64 := S754_finite false 8106479329266893 (-53).
Definition f64_1_1 : f64 := S754_finite false 4953959590107546 (-52).
(** [a >= b] for [f64]. *)
Definition f64_geb (a b : f64) : bool := SFleb b a.

(** ** Proof *)

(** The delay lies between two bounds if the extreme draws do. *)
Definition band (p : profile) (b : backoff_strategy) (i lo hi : Z) : bool :=
  match strategy_backoff p (bs_strategy b) i, bs_jitter b, bs_offset b with
  | Some v, Some j, None =>
      let ms := jitter_ms j v * 1000000 in
      (0 <=? ms) && in_delta ms && in_delta (v - ms) && in_delta (v + ms)
      && (lo <=? Z.max (v - ms) (bs_min b)) && (Z.max (v + ms) (bs_min b) <=? hi)
  | Some v, None, None => (lo <=? Z.max v (bs_min b)) && (Z.max v (bs_min b) <=? hi)
  | _, _, _ => false
  end.
Lemma band_holds p b i lo hi : band p b i lo hi = true ->
  forall u, exists d, backoff p b i u = Some d /\ lo <= d <= hi.
Proof.
  destruct b as [s j off mn]. unfold band, backoff. cbn [bs_strategy bs_jitter bs_offset bs_min].
  destruct (strategy_backoff p s i) as [v|]; [|discriminate].
  destruct j as [j|]; (destruct off; [discriminate|]).
  - cbn zeta. rewrite !andb_true_iff, !Z.leb_le. intros [[[[[H0 H1] H2] H3] H4] H5] u.
    destruct (apply_jitter_defined p j v u) as [d Hd]; auto; [lia|]. rewrite Hd.
    apply apply_jitter_spec in Hd. destruct Hd as (_ & draw & Hdraw & -> & _). eexists. split; [reflexivity|]. lia.
  - rewrite andb_true_iff, !Z.leb_le. intros H u. eauto.
Qed.
Lemma always_range (f : Z -> backoff_strategy) (lo hi : Z -> Z) a n :
  forallb (fun k => let i := a + Z.of_nat k in band Debug (f i) i (lo i) (hi i) && band Release (f i) i (lo i) (hi i)) (seq 0 n) = true ->
  forall i, a <= i < a + Z.of_nat n -> always (f i) i (fun d => lo i <= d <= hi i).
Proof.
  intros H i Hi p u. rewrite forallb_forall in H. specialize (H (Z.to_nat (i - a))).
  rewrite in_seq in H. specialize (H ltac:(lia)). cbn zeta in H.
  replace (a + Z.of_nat (Z.to_nat (i - a))) with i in H by lia. apply andb_true_iff in H.
  destruct p; apply band_holds; tauto.
Qed.
Lemma always_weaken b i (P Q : delta -> Prop) : (forall d, P d -> Q d) -> always b i P -> always b i Q.
Proof. intros H Hb p u. destruct (Hb p u) as (d & Hd & HP). eauto. Qed.

(** Whole seconds of a delay between two bounds. *)
Lemma seconds_between lo hi d : 0 <= lo -> secs lo <= d <= secs hi -> lo <= num_seconds d <= hi.
Proof.
  unfold secs, num_seconds, ns_per_s. intros H0 [H1 H2]. rewrite <- (Z.quot_mul lo 1000000000), <- (Z.quot_mul hi 1000000000) by lia.
  split; apply Z.quot_le_mono; lia.
Qed.

(** Comparisons of [f64] with a converted [i64] follow those of integers. *)
Lemma i64_mono a b : in_i64 a = true -> in_i64 b = true -> a <= b -> (B2R (i64_bin a) <= B2R (i64_bin b))%R.
Proof.
  assert (H : forall z, in_i64 z = true -> B2R (i64_bin z) = rnd (IZR z)).
  { intros z Hz. pose proof (i64_bin_correct z Hz) as (_ & eps & He & Hr).
    pose proof (binary_normalize_correct 53 1024 Hprec Hmax mode_NE z 0 false) as H. cbn zeta in H.
    fold (i64_bin z) in H. simpl round_mode in H.
    assert (Hx : F2R (Float radix2 z 0) = IZR z) by (unfold F2R; simpl; ring). rewrite Hx in H.
    change (SpecFloat.fexp 53 1024) with (FLT_exp (3 - 1024 - 53) 53) in H.
    destruct (Rlt_bool _ _) eqn:Hlt in H; [tauto|]. exfalso.
    destruct (i64_bin_correct z Hz) as (Hf & _). rewrite <- is_finite_SF_B2SF, H in Hf. discriminate. }
  intros Ha Hb Hab. rewrite !H by assumption. apply round_le; auto with typeclass_instances.
  - apply FLT_exp_valid. reflexivity.
  - apply IZR_le, Hab.
Qed.
Lemma sfleb_bin (x y : binary_float 53 1024) : is_finite x = true -> is_finite y = true ->
  SFleb (B2SF x) (B2SF y) = Rle_bool (B2R x) (B2R y).
Proof. intros Hx Hy. rewrite <- (Bleb_correct _ _ x y Hx Hy). reflexivity. Qed.
Lemma leb_below n h x : in_i64 n = true -> in_i64 h = true -> is_f64 x -> is_finite_f64 x -> n <= h ->
  SFleb (i64_as_f64 h) x = true -> SFleb (i64_as_f64 n) x = true.
Proof.
  intros Hn Hh Hx Hf Hle H. destruct (bin_of_f64 x Hx Hf) as (b & <- & Hb & _).
  pose proof (proj1 (i64_bin_correct n Hn)). pose proof (proj1 (i64_bin_correct h Hh)).
  rewrite i64_as_f64_bin, sfleb_bin in * by assumption.
  apply Rle_bool_true. eapply Rle_trans; [apply i64_mono; eassumption|].
  destruct (Rle_bool_spec (B2R (i64_bin h)) (B2R b)); [assumption|discriminate].
Qed.
Lemma leb_above n h x : in_i64 n = true -> in_i64 h = true -> is_f64 x -> is_finite_f64 x -> h <= n ->
  SFleb x (i64_as_f64 h) = true -> SFleb x (i64_as_f64 n) = true.
Proof.
  intros Hn Hh Hx Hf Hle H. destruct (bin_of_f64 x Hx Hf) as (b & <- & Hb & _).
  pose proof (proj1 (i64_bin_correct n Hn)). pose proof (proj1 (i64_bin_correct h Hh)).
  rewrite i64_as_f64_bin, sfleb_bin in * by assumption.
  apply Rle_bool_true. eapply Rle_trans; [|apply i64_mono; eassumption].
  destruct (Rle_bool_spec (B2R b) (B2R (i64_bin h))); [assumption|discriminate].
Qed.

Definition ends (lo hi : Z) (x y : f64) : bool :=
  in_i64 lo && in_i64 hi && valid_binary 53 1024 x && valid_binary 53 1024 y && is_finite_SF x && is_finite_SF y
  && SFleb x (i64_as_f64 lo) && SFleb (i64_as_f64 hi) y.
Lemma ends_hold lo hi x y n : ends lo hi x y = true -> lo <= n <= hi ->
  f64_geb (i64_as_f64 n) x = true /\ SFleb (i64_as_f64 n) y = true.
Proof.
  unfold ends. rewrite !andb_true_iff. intros [[[[[[[Hl Hh] Hx] Hy] Fx] Fy] Lx] Ly] Hn.
  assert (in_i64 n = true) by (unfold in_i64, i64_min, i64_max in *; lia).
  split; [apply leb_above with lo|apply leb_below with hi]; auto; lia.
Qed.

(** ** The theorems *)

(** The tests without jitter, backoff.rs 442-450, 494-514, 516-536 and 581-606. *)
Theorem C88_exact :
  (forall i, 1 <= i < 100 -> always (bs_constant (mins 1)) i (fun d => d = mins 1))
  /\ (forall i, 1 <= i < 100 -> always (bs_polynomial (mins 1) 2) i (fun d => d = mins (i * i)))
  /\ (forall i, 1 <= i < 100 -> always (with_max (mins 10) (bs_polynomial (mins 1) 2)) i (fun d => d <= mins 10))
  /\ (forall i, 1 <= i < 100 -> always (bs_linear (mins 1)) i (fun d => d = mins i))
  /\ (forall i, 1 <= i < 100 -> always (with_max (mins 10) (bs_linear (mins 1))) i (fun d => d <= mins 10))
  /\ (forall i, 1 <= i < 10 -> always (bs_exponential (secs 1)) i (fun d => num_seconds d = 1 ^ i))
  /\ (forall i, 1 <= i < 100 -> always (with_max (mins 10) (bs_exponential (mins 1))) i (fun d => d <= mins 10)).
Proof.
  repeat match goal with |- _ /\ _ => split end; intros i Hi.
  - eapply always_weaken; [|apply (always_range (fun _ => bs_constant (mins 1)) (fun _ => mins 1) (fun _ => mins 1) 1 99); [vm_compute; reflexivity|lia]]. cbv beta. lia.
  - eapply always_weaken; [|apply (always_range (fun _ => bs_polynomial (mins 1) 2) (fun i => mins (i * i)) (fun i => mins (i * i)) 1 99); [vm_compute; reflexivity|lia]]. cbv beta. lia.
  - eapply always_weaken; [|apply (always_range (fun _ => with_max (mins 10) (bs_polynomial (mins 1) 2)) (fun _ => 0) (fun _ => mins 10) 1 99); [vm_compute; reflexivity|lia]]. cbv beta. lia.
  - eapply always_weaken; [|apply (always_range (fun _ => bs_linear (mins 1)) mins mins 1 99); [vm_compute; reflexivity|lia]]. cbv beta. lia.
  - eapply always_weaken; [|apply (always_range (fun _ => with_max (mins 10) (bs_linear (mins 1))) (fun _ => 0) (fun _ => mins 10) 1 99); [vm_compute; reflexivity|lia]]. cbv beta. lia.
  - eapply always_weaken; [|apply (always_range (fun _ => bs_exponential (secs 1)) (fun _ => secs 1) (fun _ => secs 1) 1 9); [vm_compute; reflexivity|lia]]. cbv beta.
    intros d Hd. apply seconds_between in Hd; [|lia]. rewrite Z.pow_1_l by lia. lia.
  - eapply always_weaken; [|apply (always_range (fun _ => with_max (mins 10) (bs_exponential (mins 1))) (fun _ => 0) (fun _ => mins 10) 1 99); [vm_compute; reflexivity|lia]]. cbv beta. lia.
Qed.
Print Assumptions C88_exact.

(** The tests with a jitter, 452-492, 538-579 and 608-650, but for one. *)
Theorem C88_jitter :
  (forall i, 1 <= i < 100 -> always (with_jitter (Absolute (secs 10)) (bs_constant (mins 1))) i
     (fun d => mins 1 - secs 10 <= d <= mins 1 + secs 10))
  /\ (forall i, 1 <= i < 100 -> always (with_jitter (Relative f64_tenth) (bs_constant (mins 1))) i
     (fun d => mins 1 - secs 10 <= d <= mins 1 + secs 10))
  /\ (forall i, 1 <= i < 100 -> always (with_min (secs 5) (with_jitter (Absolute (secs 20)) (bs_constant (secs 20)))) i
     (fun d => secs 5 <= d <= secs 20 + secs 20))
  /\ (forall i, 1 <= i < 100 -> always (with_jitter (Absolute (secs 10)) (bs_linear (mins 1))) i
     (fun d => mins i - secs 10 <= d <= mins i + secs 10))
  /\ (forall i, 1 <= i < 100 -> always (with_jitter (Relative f64_tenth) (bs_linear (mins 1))) i
     (fun d => mins i - secs (10 * i) <= d <= mins i + secs (10 * i)))
  /\ (forall i, 1 <= i < 100 -> always (with_min (secs 5) (with_jitter (Absolute (secs 20)) (bs_linear (secs 20)))) i
     (fun d => secs 5 <= d <= secs (20 * i) + secs 20))
  /\ (forall i, 1 <= i < 5 -> always (with_jitter (Absolute (secs 10)) (bs_exponential (mins 1))) i
     (fun d => 60 ^ i - 10 <= num_seconds d <= 60 ^ i + 10))
  /\ (forall i, 1 <= i < 5 -> always (with_min (secs 5) (with_jitter (Absolute (secs 10)) (bs_exponential (secs 1)))) i
     (fun d => secs 5 <= d)).
Proof.
  repeat match goal with |- (forall _, _) /\ _ => split end; intros i Hi.
  - apply (always_range (fun _ => with_jitter (Absolute (secs 10)) (bs_constant (mins 1))) (fun _ => mins 1 - secs 10) (fun _ => mins 1 + secs 10) 1 99); [vm_compute; reflexivity|lia].
  - apply (always_range (fun _ => with_jitter (Relative f64_tenth) (bs_constant (mins 1))) (fun _ => mins 1 - secs 10) (fun _ => mins 1 + secs 10) 1 99); [vm_compute; reflexivity|lia].
  - apply (always_range (fun _ => with_min (secs 5) (with_jitter (Absolute (secs 20)) (bs_constant (secs 20)))) (fun _ => secs 5) (fun _ => secs 20 + secs 20) 1 99); [vm_compute; reflexivity|lia].
  - apply (always_range (fun _ => with_jitter (Absolute (secs 10)) (bs_linear (mins 1))) (fun i => mins i - secs 10) (fun i => mins i + secs 10) 1 99); [vm_compute; reflexivity|lia].
  - apply (always_range (fun _ => with_jitter (Relative f64_tenth) (bs_linear (mins 1))) (fun i => mins i - secs (10 * i)) (fun i => mins i + secs (10 * i)) 1 99); [vm_compute; reflexivity|lia].
  - apply (always_range (fun _ => with_min (secs 5) (with_jitter (Absolute (secs 20)) (bs_linear (secs 20)))) (fun _ => secs 5) (fun i => secs (20 * i) + secs 20) 1 99); [vm_compute; reflexivity|lia].
  - eapply always_weaken; [|apply (always_range (fun _ => with_jitter (Absolute (secs 10)) (bs_exponential (mins 1))) (fun i => secs (60 ^ i - 10)) (fun i => secs (60 ^ i + 10)) 1 4); [vm_compute; reflexivity|lia]].
    cbv beta. intros d. apply seconds_between. assert (60 ^ 1 <= 60 ^ i) by (apply Z.pow_le_mono_r; lia). lia.
  - eapply always_weaken; [|apply (always_range (fun _ => with_min (secs 5) (with_jitter (Absolute (secs 10)) (bs_exponential (secs 1)))) (fun _ => secs 5) (fun _ => secs 11) 1 4); [vm_compute; reflexivity|lia]]. cbv beta. lia.
Qed.
Print Assumptions C88_jitter.

(** The test that compares [f64] values, 622-632. *)
Theorem C88_jitter_f64 : forall i, 1 <= i < 5 ->
  always (with_jitter (Relative f64_tenth) (bs_exponential (mins 1))) i
    (fun d => f64_geb (i64_as_f64 (num_seconds d)) (f64_mul (i64_as_f64 (60 ^ i)) f64_0_9) = true
      /\ SFleb (i64_as_f64 (num_seconds d)) (f64_mul (i64_as_f64 (60 ^ i)) f64_1_1) = true).
Proof.
  intros i Hi.
  eapply always_weaken; [|apply (always_range (fun _ => with_jitter (Relative f64_tenth) (bs_exponential (mins 1))) (fun i => secs (54 * 60 ^ (i - 1))) (fun i => secs (66 * 60 ^ (i - 1))) 1 4); [vm_compute; reflexivity|lia]].
  cbv beta. intros d Hd. apply seconds_between in Hd; [|apply Z.mul_nonneg_nonneg; [lia|apply Z.pow_nonneg; lia]].
  refine (ends_hold _ _ _ _ _ _ Hd).
  assert (i = 1 \/ i = 2 \/ i = 3 \/ i = 4) as [-> |[-> |[-> | ->]]] by lia; vm_compute; reflexivity.
Qed.
Print Assumptions C88_jitter_f64.

(** The bounds of the tests are reached: for a jitter of ten seconds the draw decides between them. *)
Example C88_example : forall p,
  backoff p (with_jitter (Absolute (secs 10)) (bs_constant (mins 1))) 3 0 = Some (secs 50)
  /\ backoff p (with_jitter (Absolute (secs 10)) (bs_constant (mins 1))) 3 20000 = Some (secs 70)
  /\ backoff p (with_jitter (Relative f64_tenth) (bs_exponential (mins 1))) 2 0 = Some (secs 3240)
  /\ backoff p (with_jitter (Relative f64_tenth) (bs_exponential (mins 1))) 2 720000 = Some (secs 3960).
Proof. intros []; vm_compute; auto. Qed.

(** * C89 The tests of queryable.rs, memory.rs, testing.rs and rexecutor-sqlx *)

(** Every execution of the tests of queryable.rs passes if the clock advances at every reading, by
    at most a second.  They do not use a backend: [B] and its state are any. *)
Theorem C89_queryable_partial : forall B s name q c b,
  In (name, q) queryable_tests -> 0 <= c <= last_instant ->
  plays B (steady 1 (seconds 1) 0 last_instant) (rests 0 last_instant) s c q b ->
  b = true.
Proof.
  intros B s name q c b Hq Hc Hp. eapply plays_survives; [exact Hp|].
  exact (proj1 (Forall_forall _ _) (passes_queryable B s) (name, q) Hq c Hc).
Qed.
Print Assumptions C89_queryable_partial.

(** What is missing is a clock that gives the same reading twice: the job due in a day is then
    outside the window of a day. *)
Theorem C89_within_refuted : exists q c,
  In ("enqueuable_job_uniqueness_criteria_within"%string, q) queryable_tests /\ 0 <= c <= last_instant
  /\ plays (memory Debug) (steady 0 (seconds 1) 0 last_instant) (rests 0 last_instant) mem_init c q false.
Proof.
  exists own_within, one_evening. split; [cbn; tauto|]. split; [vm_compute; split; discriminate|].
  apply (play_plays _ _ _ _ _ _ (readings one_evening 0 20)).
  - apply readings_chain; vm_compute; try split; discriminate.
  - vm_compute. reflexivity.
Qed.
Print Assumptions C89_within_refuted.

(** The tests of rexecutor-sqlx/src/backend.rs, on an empty table; also if the clock stands still. *)
Theorem C89_sqlx : forall ident name q c b,
  In (name, q) sqlx_tests -> 0 <= c <= last_instant ->
  plays (postgres ident) (steady 0 (seconds 5) 0 last_instant) (rests 0 last_instant) tbl_init c q b ->
  b = true.
Proof.
  intros ident name q c b Hq Hc Hp. eapply plays_survives; [exact Hp|].
  exact (proj1 (Forall_forall _ _) (passes_sqlx ident) (name, q) Hq c Hc).
Qed.
Print Assumptions C89_sqlx.

(** The test of a poisoned lock, memory.rs 657-705, whatever the backend held before. *)
Theorem C89_bad_state : forall p m id c b,
  m_poisoned m = true -> 0 <= c <= last_instant ->
  plays (memory p) (steady 0 (seconds 5) 0 last_instant) (rests 0 last_instant) m c (own_bad_state id) b ->
  b = true.
Proof.
  intros p m id c b Hm Hc Hp. eapply plays_survives; [exact Hp|]. now apply passes_bad_state.
Qed.
Print Assumptions C89_bad_state.

(** The test of testing.rs 259-327.  [t0] to [t2] are the readings for the time of the job, for the
    builder and for the entry; [t3] and [t4] those of the two assertions that read the clock. *)
Definition simple_executor : exec_consts := mk_exec_consts "simple_executor" 2 None None.
Definition text : codec string string :=
  mk_codec (fun s => Some (JStr s)) (fun v => match v with JStr s => Some s | _ => None end)
    (fun s => Some (JStr s)) (fun v => match v with JStr s => Some s | _ => None end).
Theorem C89_assert_enqueued : forall t0 t1 t2 t3 t4,
  0 <= t0 -> t0 <= t3 <= t0 + seconds 299 -> t3 <= t4 <= last_instant ->
  exists at_ b m id,
    dt_add t0 (mins 5) = Some at_
    /\ apply_calls (builder_default t1)
         [Builder.CData "data"; Builder.CMetadata "metadata"; Builder.CWithTags ["tag1"; "tag2"; "tag3"]; Builder.CScheduleAt at_]%string = Some b
    /\ enqueue_to text simple_executor b (mem_enqueue t2) (mem_paused mem_init) = (m, ROk id)
    /\ forallb (fun x => Testing.assert_enqueued (fst x) (snd x ++ [Testing.ForExecutorC "simple_executor"]) m None)
      [(Testing.OneJobTo, [Testing.WithDataC (JStr "data")]);
       (Testing.To, [Testing.WithDataC (JStr "data")]);
       (Testing.To, [Testing.WithMetadataC (JStr "metadata")]);
       (Testing.To, [Testing.ScheduledAtC at_]);
       (Testing.To, [Testing.ScheduledAfterC t3]);
       (Testing.To, [Testing.ScheduledBeforeC (t4 + secs 3600)]);
       (Testing.To, [Testing.WithDataC (JStr "data")]);
       (Testing.To, [Testing.WithDataC (JStr "data"); Testing.TaggedWith ["tag1"; "tag2"]]);
       (Testing.JobsTo 0, [Testing.WithDataC (JStr "data2")])]%string = true.
Proof.
  intros t0 t1 t2 t3 t4 H0 H3 H4. unfold last_instant, seconds, ns_per_s in *. unfold mins, secs, dt_add.
  rewrite in_dt_ok by lia. do 4 eexists. split; [reflexivity|]. split; [reflexivity|]. split; [reflexivity|].
  cbn -[Z.add Z.ltb Z.eqb Z.mul].
  rewrite (proj2 (Z.eqb_eq (t0 + 60 * 5 * 1000000000) _)) by reflexivity.
  rewrite (proj2 (Z.ltb_lt t3 _)) by lia. rewrite (proj2 (Z.ltb_lt (t0 + _) _)) by lia. reflexivity.
Qed.
Print Assumptions C89_assert_enqueued.

(** ** Examples *)

(** Every test can be played to its end: at one microsecond a step, on an evening. *)
Definition ends_well (B : subject) (s : su_state B) (q : prog) : bool :=
  match play B s q (readings one_evening (micros 1) 30) with Some true => true | _ => false end.
Lemma ends_well_plays B s q least most : least <= micros 1 -> micros 1 <= most -> ends_well B s q = true ->
  plays B (steady least most 0 last_instant) (rests 0 last_instant) s one_evening q true.
Proof.
  unfold ends_well. intros Hl Hm H. destruct (play _ _ _ _) as [[|]|] eqn:E; try discriminate.
  eapply play_plays; [|exact E]. apply readings_chain; [lia| | |]; vm_compute; discriminate.
Qed.
Definition after_one : mem := poison (fst (mem_enqueue one_evening mem_init (req "executor" 0 one_evening))).
Example C89_example :
  Forall (fun t => forall B s, plays B (steady 1 (seconds 1) 0 last_instant) (rests 0 last_instant) s one_evening (snd t) true)
    queryable_tests
  /\ Forall (fun t => plays (postgres no_hash) (steady 0 (seconds 5) 0 last_instant) (rests 0 last_instant) tbl_init one_evening (snd t) true)
    sqlx_tests
  /\ m_poisoned after_one = true
  /\ plays (memory Debug) (steady 0 (seconds 5) 0 last_instant) (rests 0 last_instant) after_one one_evening (own_bad_state 1) true
  /\ length queryable_tests = 9%nat /\ length sqlx_tests = 7%nat.
Proof.
  repeat match goal with |- _ /\ _ => split end; try reflexivity.
  - repeat constructor; intros B s; (apply ends_well_plays; [vm_compute; discriminate..|]); vm_compute; reflexivity.
  - repeat constructor; (apply ends_well_plays; [vm_compute; discriminate..|]); vm_compute; reflexivity.
  - apply ends_well_plays; [vm_compute; discriminate..|]. vm_compute. reflexivity.
Qed.

(** Every assertion on an answer counts: the tests pass with the first answers and fail with each of
    the others. *)
Definition nothing : mres := RJob (Ok None).
Definition executing (id : Z) : mres := next_is (seen id "executor" Executing 0 1 5 0 [] None None None).
Definition refused : mres := RUnit (Err BadState).
Definition bad_jobs : mres := RJobs (Err BadState).
(** One of the answers to [own_bad_state] is not the error. *)
Definition one_answered (n : nat) : list mres :=
  let l := bad_id :: repeat refused 8 ++ [bad_jobs] in firstn n l ++ fine :: skipn (S n) l.
Example C89_assertions :
  forallb (fun b => b)
   [tells own_load_none [nothing] [[executing 1]; [RJob (Err BadState)]];
    tells own_load_ready [id_ 7; executing 7]
      [[id_ 7; executing 8]; [id_ 7; nothing]; [bad_id; executing 7]; [id_ 7; next_is (plain 7 "executor")]];
    tells own_load_executing [id_ 7; executing 7; nothing]
      [[id_ 7; nothing; nothing]; [id_ 7; executing 7; executing 7]; [bad_id; executing 7; nothing]];
    tells own_load_retryable [id_ 7; fine; executing 7]
      [[id_ 7; gone; executing 7]; [id_ 7; fine; nothing]; [id_ 7; fine; executing 8];
       [id_ 7; fine; next_is (stat_ Retryable)]; [bad_id; fine; executing 7]];
    tells own_load_past [id_ 7; executing 7]
      [[id_ 7; executing 8]; [id_ 7; nothing]; [bad_id; executing 7]; [id_ 7; next_is (plain 7 "executor")]];
    tells own_load_oldest [id_ 1; id_ 2; id_ 3; fine; id_ 4; fine; id_ 5; fine; executing 1]
      [[id_ 1; id_ 2; id_ 3; fine; id_ 4; fine; id_ 5; fine; executing 2];
       [id_ 1; id_ 2; id_ 3; fine; id_ 4; fine; id_ 5; fine; nothing];
       [bad_id; id_ 2; id_ 3; fine; id_ 4; fine; id_ 5; fine; executing 1];
       [id_ 1; bad_id; id_ 3; fine; id_ 4; fine; id_ 5; fine; executing 1];
       [id_ 1; id_ 2; bad_id; fine; id_ 4; fine; id_ 5; fine; executing 1];
       [id_ 1; id_ 2; id_ 3; gone; id_ 4; fine; id_ 5; fine; executing 1];
       [id_ 1; id_ 2; id_ 3; fine; bad_id; fine; id_ 5; fine; executing 1];
       [id_ 1; id_ 2; id_ 3; fine; id_ 4; gone; id_ 5; fine; executing 1];
       [id_ 1; id_ 2; id_ 3; fine; id_ 4; fine; bad_id; fine; executing 1];
       [id_ 1; id_ 2; id_ 3; fine; id_ 4; fine; id_ 5; gone; executing 1]];
    tells own_enqueue [id_ 7; many 1] [[bad_id; many 1]; [id_ 7; many 0]; [id_ 7; many 2]; [id_ 7; bad_jobs]];
    tells (own_bad_state 7) (bad_id :: repeat refused 8 ++ [bad_jobs]) (map one_answered (seq 0 10))] = true.
Proof. vm_compute. reflexivity. Qed.

(** What they ask, and when the jobs they enqueue are due, counted from the first millisecond. *)
Definition asked_pg (q : prog) : list mop := script (postgres no_hash) tbl_init q (readings 0 ns_per_ms 900).
Definition mock_at (t : time) : mop := OpEnqueue (mk_enqueuable "executor" (JStr "data") (JStr "metadata") 5 t [] 0 None).
Definition load_one : mop := OpLoad "executor".
Definition hours_ago (n : Z) (t : time) : time := t - secs (3600 * n).
Example C89_asks :
  asked_pg own_load_none = [load_one]
  /\ asked_pg own_load_ready = [mock_at (at_ms 1); load_one]
  /\ asked_pg own_load_executing = [mock_at (at_ms 1); load_one; load_one]
  /\ asked_pg own_load_retryable
     = [mock_at (at_ms 1); OpRetryable 1 (at_ms 3) (mk_exec_error EPanic "Oh dear"); load_one]
  /\ asked_pg own_load_past = [mock_at (hours_ago 3 (at_ms 2)); load_one]
  /\ asked_pg own_load_oldest
     = [mock_at (hours_ago 3 (at_ms 2)); mock_at (at_ms 4); mock_at (at_ms 6); OpComplete 3; mock_at (at_ms 9);
        OpDiscarded 4 (mk_exec_error EPanic "Oh dear"); mock_at (at_ms 12);
        OpCancelled 5 (mk_exec_error ECancelled "Not needed"); load_one]
  /\ asked_pg own_enqueue = [mock_at (at_ms 1); OpQuery (QNot (QExecutorEqual ""))]
  /\ script (memory Debug) after_one (own_bad_state 1) (readings 0 ns_per_ms 900)
     = [mock_at (at_ms 2); OpComplete 1; OpRerun 1; OpRetryable 1 (at_ms 1 + a_day) custom_error;
        OpDiscarded 1 custom_error; OpCancelled 1 custom_error; OpSnoozed 1 (at_ms 1 + a_day);
        OpPrune (mk_prune_spec Executing (MaxLength 5) (Only ["executor"%string]));
        OpUpdate {| j_id := 0; j_status := Scheduled; j_executor := "executor"; j_data := JNull; j_metadata := JNull;
          j_attempt := 0; j_max_attempts := 3; j_priority := 0; j_tags := []; j_errors := []; j_inserted_at := at_ms 3;
          j_scheduled_at := at_ms 3 + secs 7200; j_attempted_at := None; j_completed_at := None;
          j_cancelled_at := None; j_discarded_at := None |};
        OpQuery (QIdEquals 1)].
Proof. vm_compute. repeat split. Qed.
