(** The limits of dates, powers, fractions and delays. *)
From Coq Require Import SpecFloat.
From Verif Require Import Base Chrono Types Query Memory MemConc MemWake Samples Backoff BackoffProofs Builder.

(** * C71 Dates *)

(** The Gregorian calendar, also before its introduction. *)
Definition leap (y : Z) : Prop := (y mod 4 = 0 /\ y mod 100 <> 0) \/ y mod 400 = 0.

(** The days from 1970-01-01 to the first day of [y], for checking the constants. *)
Definition year_start (y : Z) : Z := (y - 1970) * 365 + (y - 1) / 4 - (y - 1) / 100 + (y - 1) / 400 - 477.
Lemma year_start_1970 : year_start 1970 = 0.
Proof. reflexivity. Qed.
Lemma step_div y n : 0 < n -> y / n - (y - 1) / n = if Z.eq_dec (y mod n) 0 then 1 else 0.
Proof.
  intro Hn. pose proof (Z.div_mod y n ltac:(lia)) as E. pose proof (Z.mod_pos_bound y n Hn) as B.
  destruct (Z.eq_dec (y mod n) 0) as [H0|H0].
  - assert (K : (y - 1) / n = y / n - 1) by (symmetry; apply (Z.div_unique_pos _ _ _ (n - 1)); nia). lia.
  - assert (K : (y - 1) / n = y / n) by (symmetry; apply (Z.div_unique_pos _ _ _ (y mod n - 1)); nia). lia.
Qed.
Lemma year_start_step y : (leap y -> year_start (y + 1) = year_start y + 366) /\ (~ leap y -> year_start (y + 1) = year_start y + 365).
Proof.
  unfold year_start, leap. replace (y + 1 - 1) with y by lia.
  pose proof (step_div y 4 eq_refl) as H1. pose proof (step_div y 100 eq_refl) as H2. pose proof (step_div y 400 eq_refl) as H3.
  pose proof (Z.div_mod y 400 ltac:(lia)) as E1. pose proof (Z.div_mod y 100 ltac:(lia)) as E2. pose proof (Z.div_mod y 4 ltac:(lia)) as E3.
  destruct (Z.eq_dec (y mod 4) 0), (Z.eq_dec (y mod 100) 0), (Z.eq_dec (y mod 400) 0); split; intro H;
    first [lia | exfalso; lia].
Qed.
Lemma calendar (start : Z -> Z) : start 1970 = 0 ->
  (forall y, leap y -> start (y + 1) = start y + 366) -> (forall y, ~ leap y -> start (y + 1) = start y + 365) ->
  forall y, start y = year_start y.
Proof.
  intros H0 Hl Hn.
  assert (Hdec : forall y, leap y \/ ~ leap y) by (intro y; unfold leap; lia).
  assert (Hd : forall y, start (y + 1) - start y = year_start (y + 1) - year_start y).
  { intro y. destruct (year_start_step y) as [A B]. destruct (Hdec y) as [H|H]; [rewrite (Hl y H), (A H)|rewrite (Hn y H), (B H)]; lia. }
  assert (Hup : forall n, start (1970 + Z.of_nat n) = year_start (1970 + Z.of_nat n)).
  { induction n as [|n IH]; [exact H0|]. specialize (Hd (1970 + Z.of_nat n)). replace (1970 + Z.of_nat (S n)) with (1970 + Z.of_nat n + 1) by lia. lia. }
  assert (Hdown : forall n, start (1970 - Z.of_nat n) = year_start (1970 - Z.of_nat n)).
  { induction n as [|n IH]; [exact H0|]. specialize (Hd (1970 - Z.of_nat (S n))). replace (1970 - Z.of_nat (S n) + 1) with (1970 - Z.of_nat n) in Hd by lia. lia. }
  intro y. destruct (Z.le_gt_cases 1970 y) as [H|H].
  - replace y with (1970 + Z.of_nat (Z.to_nat (y - 1970))) by lia. apply Hup.
  - replace y with (1970 - Z.of_nat (Z.to_nat (1970 - y))) by lia. apply Hdown.
Qed.

(** Adding a duration to a date, or subtracting it, works exactly when the result lies in the years
    from -262143 to 262142: [start] is any numbering of the days in which years have their lengths. *)
Theorem C71_dates : forall start t d,
  start 1970 = 0 -> (forall y, leap y -> start (y + 1) = start y + 366) -> (forall y, ~ leap y -> start (y + 1) = start y + 365) ->
  let day := 24 * 60 * 60 * 1000000000 in
  (forall r, dt_add t d = Some r <-> r = t + d /\ start (-262143) * day <= r < start 262143 * day)
  /\ (forall r, dt_sub t d = Some r <-> r = t - d /\ start (-262143) * day <= r < start 262143 * day).
Proof.
  intros start t d H0 Hl Hn day. rewrite !(calendar start H0 Hl Hn).
  assert (E1 : year_start (-262143) * day = dt_min) by reflexivity. assert (E2 : year_start 262143 * day = dt_max + 1) by reflexivity.
  rewrite E1, E2. unfold dt_add, dt_sub, in_dt.
  assert (H : forall x r, (if (dt_min <=? x) && (x <=? dt_max) then Some x else None) = Some r <-> r = x /\ dt_min <= r < dt_max + 1).
  { intros x r. destruct ((dt_min <=? x) && (x <=? dt_max)) eqn:E.
    - split; [intro K; injection K as <-; apply andb_true_iff in E; rewrite !Z.leb_le in E; lia|intros [-> _]; reflexivity].
    - split; [discriminate|]. intros [-> K]. apply andb_false_iff in E. rewrite !Z.leb_gt in E. lia. }
  split; intro r; apply H.
Qed.
Print Assumptions C71_dates.
Example C71_dates_sample :
  year_start 1970 = 0 /\ year_start 2000 = 10957 /\ year_start 2024 = 19723 /\ year_start 1 = -719162
  /\ (forall y, leap y -> year_start (y + 1) = year_start y + 366) /\ (forall y, ~ leap y -> year_start (y + 1) = year_start y + 365)
  /\ dt_add 0 (365 * 86400000000000) = Some (year_start 1971 * 86400000000000) /\ dt_add 0 delta_max = None.
Proof. do 4 (split; [reflexivity|]). split; [apply year_start_step|]. split; [apply year_start_step|]. split; reflexivity. Qed.

(** * C37 Exponential backoff *)

(** With a cap an exponential backoff crashes exactly for powers that are representable but, taken as
    seconds, too far below zero; no other base or attempt crashes it. *)
Theorem C37_exponential_capped : forall p base m a,
  Z.abs m <= 9223372036854775807 * 1000000 ->
  let s := Z.quot base 1000000000 ^ a in
  strategy_backoff p (Exponential base (Some m)) a = None <-> - 2 ^ 63 <= s < -9223372036854775.
Proof.
  intros p base m a Hm s. cbn [strategy_backoff]. unfold saturating_pow, num_seconds, ns_per_s. fold s.
  assert (Hq : -9223372036854775 <= Z.quot m 1000000000 <= 9223372036854775).
  { replace (-9223372036854775) with (Z.quot (-9223372036854775807000000) 1000000000) by reflexivity.
    replace 9223372036854775 with (Z.quot 9223372036854775807000000 1000000000) by reflexivity. split; apply Z.quot_le_mono; lia. }
  set (q := Z.quot m 1000000000) in *. unfold delta_seconds, in_delta, delta_min, delta_max, in_i64, i64_min, i64_max, ns_per_s, ns_per_ms.
  destruct ((-9223372036854775808 <=? s) && (s <=? 9223372036854775807)) eqn:E.
  - apply andb_true_iff in E. rewrite !Z.leb_le in E. destruct ((_ <=? Z.min s q * _) && (_ <=? _)) eqn:E2.
    + apply andb_true_iff in E2. rewrite !Z.leb_le in E2. split; [discriminate|lia].
    + apply andb_false_iff in E2. rewrite !Z.leb_gt in E2. split; [intros _; lia|reflexivity].
  - apply andb_false_iff in E. rewrite !Z.leb_gt in E. destruct ((_ <=? Z.min _ q * _) && (_ <=? _)) eqn:E2.
    + split; [discriminate|lia].
    + apply andb_false_iff in E2. rewrite !Z.leb_gt in E2. split; [intros _; lia|lia].
Qed.
Print Assumptions C37_exponential_capped.
(** Without a cap also for powers too far above zero. *)
Theorem C37_exponential_uncapped : forall p base a,
  let s := Z.quot base 1000000000 ^ a in
  strategy_backoff p (Exponential base None) a = None <-> s < -9223372036854775 \/ 9223372036854775 < s.
Proof.
  intros p base a s. cbn [strategy_backoff]. unfold saturating_pow, num_seconds, ns_per_s. fold s.
  unfold delta_seconds, in_delta, delta_min, delta_max, in_i64, i64_min, i64_max, ns_per_s, ns_per_ms.
  destruct ((-9223372036854775808 <=? s) && (s <=? 9223372036854775807)) eqn:E.
  - apply andb_true_iff in E. rewrite !Z.leb_le in E. destruct ((_ <=? s * _) && (_ <=? _)) eqn:E2.
    + apply andb_true_iff in E2. rewrite !Z.leb_le in E2. split; [discriminate|lia].
    + apply andb_false_iff in E2. rewrite !Z.leb_gt in E2. split; [intros _; lia|reflexivity].
  - apply andb_false_iff in E. rewrite !Z.leb_gt in E. split; [intros _; lia|reflexivity].
Qed.
Print Assumptions C37_exponential_uncapped.
Example C37_exponential_sample :
  strategy_backoff Debug (Exponential (-2000000000) (Some 5000000000)) 63 = None
  /\ strategy_backoff Debug (Exponential (-2000000000) (Some 5000000000)) 65 = Some 5000000000
  /\ strategy_backoff Debug (Exponential 4000000000 (Some 604800000000000)) 65535 = Some 604800000000000.
Proof. vm_compute. auto. Qed.

(** * C35 Fractions that are not numbers *)

(** A ratio that is not a number means no jitter at all. *)
Theorem C35_not_a_number : forall p s off mn a v u,
  strategy_backoff p s a = Some v -> Z.abs v <= 9223372036854775807 * 1000000 ->
  backoff p (mk_bs s (Some (Relative S754_nan)) off mn) a u = backoff p (mk_bs s None off mn) a u.
Proof.
  intros p s off mn a v u Hv Hb. unfold backoff. cbn [bs_strategy bs_jitter bs_offset bs_min]. rewrite Hv.
  assert (Hd : forall d, in_delta d = true -> apply_jitter p (Relative S754_nan) d u = Some d).
  { intros d Hd. unfold apply_jitter, jitter_ms. replace (f64_mul (i64_as_f64 (num_milliseconds d)) S754_nan) with S754_nan
      by (unfold f64_mul; destruct (i64_as_f64 (num_milliseconds d)); reflexivity).
    cbn [f64_round_as_i64]. assert (R : random_range p 0 u = Some 0).
    { unfold random_range. change (0 =? i64_min) with false. change (0 <? 0) with false. cbv iota.
      change (2 * 0 + 1) with 1. rewrite Z.mod_1_r. reflexivity. }
    rewrite R. change (delta_milliseconds 0) with (Some 0). cbv iota beta. unfold delta_add. cbv zeta. rewrite Z.add_0_r, Hd. reflexivity. }
  assert (Hin : in_delta v = true).
  { unfold in_delta, delta_min, delta_max, i64_max, ns_per_ms. apply andb_true_iff. rewrite !Z.leb_le. lia. }
  destruct off as [o|].
  - unfold delta_add. destruct (in_delta (v + o)) eqn:E; [|reflexivity]. rewrite (Hd _ E). reflexivity.
  - rewrite (Hd _ Hin). reflexivity.
Qed.
Print Assumptions C35_not_a_number.
Example C35_not_a_number_sample : backoff Debug (mk_bs (Constant 7) (Some (Relative S754_nan)) (Some 5) 0) 1 99 = Some 12.
Proof. vm_compute. reflexivity. Qed.

(** * C36 The fraction of the default policy *)

(** The constant is the [f64] nearest to one tenth: a mantissa of 53 bits, off by at most half a
    unit. *)
Theorem C36_one_tenth : exists m, f64_tenth = S754_finite false m (-56) /\ 2 ^ 52 <= Zpos m < 2 ^ 53
  /\ 2 * Z.abs (10 * Zpos m - 2 ^ 56) <= 10.
Proof. eexists. split; [reflexivity|]. lia. Qed.
Print Assumptions C36_one_tenth.

(** * C30 How a stream goes on after looking *)

(** A job due within 15 ms is tried for at once; otherwise the stream sleeps until it is due, but at
    most 30 s, which it also does when nothing waits. *)
Theorem C30_sleep_or_try : forall p s k sb seen now,
  nth_error (c_streams s) k = Some (SGot seen) -> nth_error (m_subs (c_mem s)) k = Some sb ->
  exists ph, nth_error (c_streams (fst (conc_step p s (LStream k now)))) k = Some ph
    /\ match seen with
       | None => ph = SSelect None now 30000000000
       | Some t =>
           (t < now -> ph = SLoad seen now 15000000)
           /\ (now <= t <= now + 15000000 -> ph = SLoad seen now (t - now))
           /\ (now + 15000000 < t <= now + 30000000000 -> ph = SSelect seen now (t - now))
           /\ (now + 30000000000 < t -> ph = SSelect seen now 30000000000)
       end.
Proof.
  intros p s k sb seen now Hk Hsb. cbn [conc_step]. rewrite Hk, Hsb. cbn [stream_step fst c_streams].
  rewrite set_nth_nth, Nat.eqb_refl, Hk. eexists. split; [reflexivity|].
  change MemConc.delta with 15000000. destruct seen as [t|]; [|reflexivity].
  unfold stream_delay, to_std, dt_diff. change MemConc.delta with 15000000. change default_delay with 30000000000.
  repeat split; intro H.
  - replace (t - now <? 0) with true by (symmetry; apply Z.ltb_lt; lia). reflexivity.
  - replace (t - now <? 0) with false by (symmetry; apply Z.ltb_ge; lia). rewrite Z.min_l by lia.
    replace (t - now <=? 15000000) with true by (symmetry; apply Z.leb_le; lia). reflexivity.
  - replace (t - now <? 0) with false by (symmetry; apply Z.ltb_ge; lia). rewrite Z.min_l by lia.
    replace (t - now <=? 15000000) with false by (symmetry; apply Z.leb_gt; lia). reflexivity.
  - replace (t - now <? 0) with false by (symmetry; apply Z.ltb_ge; lia). rewrite Z.min_r by lia. reflexivity.
Qed.
Print Assumptions C30_sleep_or_try.
Example C30_sleep_or_try_sample :
  let s := mk_c (m_sample) [] [SGot (Some (20 * ms))] in
  nth_error (c_streams (fst (conc_step Debug s (LStream 0 (4 * ms))))) 0 = Some (SSelect (Some (20 * ms)) (4 * ms) (16 * ms))
  /\ nth_error (c_streams (fst (conc_step Debug s (LStream 0 (5 * ms))))) 0 = Some (SLoad (Some (20 * ms)) (5 * ms) (15 * ms)).
Proof. vm_compute. auto. Qed.
