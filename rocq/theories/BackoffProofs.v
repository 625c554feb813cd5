(** Proofs about backoff strategies. *)
From Verif Require Import Base Chrono Backoff.

(** What the documentation of the strategies promises: the delay before offset, jitter and
    minimum.  The exponential strategy works on whole seconds. *)
Definition cap (m : option Z) (d : Z) : Z := match m with Some m => Z.min d m | None => d end.
Definition whole_seconds (d : Z) : Z := Z.quot d 1000000000.
Definition nominal (s : strategy) (attempt : Z) : Z :=
  match s with
  | Constant d => d
  | Linear f m => cap m (f * attempt)
  | Polynomial f k m => cap m (f * attempt ^ k)
  | Exponential b m => cap (option_map whole_seconds m) (whole_seconds b ^ attempt) * 1000000000
  | Custom f => match f attempt with Some d => d | None => 0 end
  end.

(** Parameters a program can construct: durations are [TimeDelta]s and the power is a [u32]. *)
Definition opt_delta (m : option delta) : Prop := forall d, m = Some d -> in_delta d = true.
Definition well_formed (s : strategy) : Prop :=
  match s with
  | Constant d => in_delta d = true
  | Exponential b m => in_delta b = true /\ opt_delta m
  | Linear f m => in_delta f = true /\ opt_delta m
  | Polynomial f k m => in_delta f = true /\ 0 <= k <= 4294967295 /\ opt_delta m
  | Custom f => forall a d, f a = Some d -> in_delta d = true
  end.

(** The intermediate values that must be representable. *)
Definition no_overflow (s : strategy) (attempt : Z) : Prop :=
  match s with
  | Constant _ => True
  | Linear f _ => in_delta (f * attempt) = true
  | Polynomial f k _ => attempt ^ k <= 2147483647 /\ in_delta (f * attempt ^ k) = true
  | Exponential b m => 0 <= b /\ in_delta (nominal s attempt) = true
  | Custom f => f attempt <> None
  end.

Lemma in_delta_spec d : in_delta d = true <-> delta_min <= d <= delta_max.
Proof. unfold in_delta. rewrite andb_true_iff, !Z.leb_le. reflexivity. Qed.

Lemma if_some (b : bool) (x y : Z) : (if b then Some x else None) = Some y <-> y = x /\ b = true.
Proof.
  destruct b; split; intro H; try discriminate.
  - injection H as <-. auto.
  - destruct H as [-> _]. reflexivity.
  - destruct H as [_ H]. discriminate.
Qed.

Lemma delta_add_some a b d : delta_add a b = Some d <-> d = a + b /\ in_delta (a + b) = true.
Proof. apply if_some. Qed.
Lemma delta_mul_some a b d : delta_mul a b = Some d <-> d = a * b /\ in_delta (a * b) = true.
Proof. apply if_some. Qed.
Lemma delta_seconds_some s d : delta_seconds s = Some d <-> d = s * 1000000000 /\ in_delta d = true.
Proof.
  unfold delta_seconds. cbn zeta. rewrite if_some. unfold ns_per_s.
  split; intros [H1 H2]; subst; auto.
Qed.

Lemma seconds_bound m : in_delta m = true -> whole_seconds m < i64_max.
Proof.
  intro H. apply in_delta_spec in H. unfold whole_seconds.
  apply Z.le_lt_trans with 9223372036854776; [|reflexivity].
  destruct (Z.le_gt_cases 0 m) as [Hm|Hm].
  - apply Z.quot_le_upper_bound; [lia|]. unfold delta_max, i64_max, ns_per_ms in H. lia.
  - assert (Z.quot m 1000000000 <= 0); [|lia].
    rewrite <- (Z.opp_involutive m). rewrite Z.quot_opp_l by lia.
    pose proof (Z.quot_pos (- m) 1000000000). lia.
Qed.

Lemma pow_over b a : 0 <= b -> 0 <= a -> in_i64 (b ^ a) = false -> i64_max < b ^ a.
Proof.
  intros Hb Ha H. unfold in_i64 in H. apply andb_false_iff in H. rewrite !Z.leb_gt in H.
  pose proof (Z.pow_nonneg b a Hb). unfold i64_min in H. lia.
Qed.

Lemma exp_seconds b m a :
  0 <= b -> 0 <= a -> opt_delta m ->
  let r := cap (option_map whole_seconds m) (whole_seconds b ^ a) in
  let c := match m with
           | Some m => Z.min (saturating_pow (num_seconds b) a) (num_seconds m)
           | None => saturating_pow (num_seconds b) a end in
  (c = r /\ (in_i64 (whole_seconds b ^ a) = true \/ m <> None))
  \/ (c = i64_max /\ i64_max < r /\ m = None).
Proof.
  intros Hb Ha Hm. cbn zeta. change num_seconds with whole_seconds. unfold saturating_pow.
  assert (Hs : 0 <= whole_seconds b) by (apply Z.quot_pos; lia).
  destruct (in_i64 (whole_seconds b ^ a)) eqn:E.
  - left. destruct m; auto.
  - apply pow_over in E; auto. destruct m as [m|]; cbn [cap option_map]; [left|right; auto].
    pose proof (seconds_bound m (Hm m eq_refl)). split; [lia | right; discriminate].
Qed.

(** With overflow checks. *)
Lemma strategy_formula p s a d :
  well_formed s -> 0 <= a <= 65535 ->
  match s with
  | Exponential b _ => 0 <= b
  | Polynomial _ k _ => p = Debug \/ a ^ k <= 2147483647
  | _ => True end ->
  strategy_backoff p s a = Some d -> d = nominal s a.
Proof.
  intros Hwf Ha Hs Hd. destruct s as [d0|b m|f m|f k m|f]; cbn in *.
  - congruence.
  - destruct Hwf as [_ Hm]. destruct (exp_seconds b m a Hs ltac:(lia) Hm) as [[H _]|[H1 [H2 ->]]]; cbn zeta in *.
    + rewrite H in Hd. apply delta_seconds_some in Hd. destruct Hd as [-> _]. reflexivity.
    + rewrite H1 in Hd. vm_compute in Hd. discriminate Hd.
  - destruct (delta_mul f a) as [b|] eqn:E; [|discriminate]. apply delta_mul_some in E. destruct E as [-> _].
    injection Hd as <-. destruct m; reflexivity.
  - assert (Hk : 0 <= a ^ k) by (apply Z.pow_nonneg; lia).
    destruct (i32_arith p (a ^ k)) as [x|] eqn:E; [|discriminate].
    assert (x = a ^ k) as ->.
    { unfold i32_arith, in_i32 in E. destruct ((_ <=? _) && (_ <=? _)) eqn:E2; [congruence|].
      destruct Hs as [->|Hs]; [discriminate|]. apply andb_false_iff in E2. rewrite !Z.leb_gt in E2. lia. }
    destruct (delta_mul f (a ^ k)) as [b|] eqn:E2; [|discriminate]. apply delta_mul_some in E2. destruct E2 as [-> _].
    injection Hd as <-. destruct m; reflexivity.
  - rewrite Hd. reflexivity.
Qed.

Lemma strategy_defined p s a :
  well_formed s -> 0 <= a <= 65535 -> no_overflow s a ->
  strategy_backoff p s a = Some (nominal s a).
Proof.
  intros Hwf Ha Hn. destruct s as [d0|b m|f m|f k m|f]; cbn [strategy_backoff nominal no_overflow] in *.
  - reflexivity.
  - destruct Hn as [Hb Hn]. destruct Hwf as [_ Hm].
    destruct (exp_seconds b m a Hb ltac:(lia) Hm) as [[H _]|[H1 [H2 ->]]]; cbn zeta in *.
    + rewrite H. apply delta_seconds_some. auto.
    + exfalso. apply in_delta_spec in Hn. cbn in Hn. unfold delta_max, ns_per_ms, i64_max in Hn. cbn [cap option_map] in H2. unfold i64_max in H2. lia.
  - unfold delta_mul. cbn zeta. rewrite Hn. destruct m; reflexivity.
  - destruct Hn as [H1 H2]. unfold i32_arith.
    assert (Hi : in_i32 (a ^ k) = true).
    { unfold in_i32. apply andb_true_iff. rewrite !Z.leb_le. pose proof (Z.pow_nonneg a k). lia. }
    rewrite Hi. unfold delta_mul. cbn zeta. rewrite H2. destruct m; reflexivity.
  - destruct (f a); [reflexivity | contradiction].
Qed.

(** * Monotonicity *)

Lemma cap_mono m x y : x <= y -> cap m x <= cap m y.
Proof. destruct m; cbn; lia. Qed.

Lemma nominal_mono s a1 a2 :
  match s with
  | Constant _ => True
  | Exponential b _ => 1000000000 <= b \/ (0 <= b /\ 1 <= a1)
  | Linear f _ => 0 <= f
  | Polynomial f k _ => 0 <= f /\ 0 <= k
  | Custom f => False
  end ->
  0 <= a1 <= a2 -> nominal s a1 <= nominal s a2.
Proof.
  intros Hs Ha. destruct s as [d0|b m|f m|f k m|f]; cbn [nominal].
  - lia.
  - assert (whole_seconds b ^ a1 <= whole_seconds b ^ a2); [|pose proof (cap_mono (option_map whole_seconds m) _ _ H); lia].
    assert (Hb : 0 < whole_seconds b \/ (whole_seconds b = 0 /\ 1 <= a1)).
    { unfold whole_seconds. destruct Hs as [Hs|[Hs H1]].
      - left. assert (1 <= Z.quot b 1000000000); [|lia]. apply Z.quot_le_lower_bound; lia.
      - pose proof (Z.quot_pos b 1000000000 Hs ltac:(lia)). lia. }
    destruct Hb as [Hb|[-> H1]]; [apply Z.pow_le_mono_r; lia|].
    rewrite !Z.pow_0_l by lia. lia.
  - apply cap_mono. nia.
  - apply cap_mono. destruct Hs as [Hf Hk]. apply Z.mul_le_mono_nonneg_l; [exact Hf|].
    apply Z.pow_le_mono_l. lia.
  - destruct Hs.
Qed.

(** * Jitter *)

Lemma random_range_spec p ms u d :
  random_range p ms u = Some d -> ms <> i64_min ->
  0 <= ms /\ - ms <= d <= ms.
Proof.
  unfold random_range. intros H Hm. destruct (ms =? i64_min) eqn:E1; [apply Z.eqb_eq in E1; contradiction|].
  destruct (ms <? 0) eqn:E2; [discriminate|]. apply Z.ltb_ge in E2.
  assert (d = - ms + u mod (2 * ms + 1)) as -> by congruence.
  pose proof (Z.mod_pos_bound u (2 * ms + 1) ltac:(lia)). lia.
Qed.

Lemma random_range_all p ms d : - ms <= d <= ms -> exists u, random_range p ms u = Some d.
Proof.
  intro H. exists (d + ms). unfold random_range.
  destruct (ms =? i64_min) eqn:E1; [apply Z.eqb_eq in E1; unfold i64_min in E1; lia|].
  destruct (ms <? 0) eqn:E2; [apply Z.ltb_lt in E2; lia|].
  rewrite Z.mod_small by lia. f_equal. lia.
Qed.

Lemma apply_jitter_spec p j v u d :
  apply_jitter p j v u = Some d ->
  0 <= jitter_ms j v /\ exists draw, - jitter_ms j v <= draw <= jitter_ms j v
    /\ d = v + draw * 1000000 /\ in_delta d = true.
Proof.
  unfold apply_jitter. destruct (random_range p (jitter_ms j v) u) as [draw|] eqn:E; [|discriminate].
  unfold delta_milliseconds. cbn zeta. destruct (in_delta (draw * ns_per_ms)) eqn:E2; [|discriminate].
  intro H. apply delta_add_some in H. destruct H as [-> H].
  destruct (Z.eq_dec (jitter_ms j v) i64_min) as [Hm|Hm].
  - exfalso. rewrite Hm in E. unfold random_range in E. rewrite Z.eqb_refl in E. destruct p; [discriminate|].
    injection E as <-. vm_compute in E2. discriminate.
  - apply random_range_spec in E; auto. split; [tauto|]. exists draw. tauto.
Qed.

Lemma apply_jitter_defined p j v u :
  0 <= jitter_ms j v -> in_delta (jitter_ms j v * 1000000) = true ->
  in_delta (v - jitter_ms j v * 1000000) = true -> in_delta (v + jitter_ms j v * 1000000) = true ->
  exists d, apply_jitter p j v u = Some d.
Proof.
  intros H0 H1 H2 H3. unfold apply_jitter, random_range.
  destruct (jitter_ms j v =? i64_min) eqn:E1; [apply Z.eqb_eq in E1; unfold i64_min in E1; lia|].
  destruct (jitter_ms j v <? 0) eqn:E2; [apply Z.ltb_lt in E2; lia|].
  pose proof (Z.mod_pos_bound u (2 * jitter_ms j v + 1) ltac:(lia)) as Hu.
  set (draw := - jitter_ms j v + u mod (2 * jitter_ms j v + 1)) in *.
  apply in_delta_spec in H1, H2, H3. unfold delta_min in *. unfold delta_milliseconds, ns_per_ms. cbn zeta.
  replace (in_delta (draw * 1000000)) with true
    by (symmetry; apply in_delta_spec; unfold delta_min; lia).
  eexists. apply delta_add_some. split; [reflexivity|]. apply in_delta_spec. unfold delta_min. lia.
Qed.

Lemma absolute_ms d v : 0 <= d -> 0 <= jitter_ms (Absolute d) v /\ jitter_ms (Absolute d) v * 1000000 <= d
  /\ d < (jitter_ms (Absolute d) v + 1) * 1000000.
Proof.
  intro H. cbn. unfold num_milliseconds, ns_per_ms.
  pose proof (Z.quot_pos d 1000000 H ltac:(lia)).
  pose proof (Z.quot_rem' d 1000000). pose proof (Z.rem_bound_pos d 1000000 H ltac:(lia)). lia.
Qed.

(** * The whole computation *)

Lemma backoff_none p s off mn a u :
  backoff p (mk_bs s None off mn) a u =
  match strategy_backoff p s a with
  | None => None
  | Some d => match (match off with Some o => delta_add d o | None => Some d end) with
              | None => None
              | Some d => Some (Z.max d mn)
              end
  end.
Proof. reflexivity. Qed.

Lemma backoff_jitter p s j off mn a u d :
  backoff p (mk_bs s (Some j) off mn) a u = Some d ->
  exists v d', (match strategy_backoff p s a with
                | None => None
                | Some d => match off with Some o => delta_add d o | None => Some d end
                end) = Some v
    /\ apply_jitter p j v u = Some d' /\ d = Z.max d' mn.
Proof.
  unfold backoff. cbn [bs_strategy bs_jitter bs_offset bs_min].
  destruct (strategy_backoff p s a) as [d0|]; [|discriminate].
  destruct (match off with Some o => delta_add d0 o | None => Some d0 end) as [v|]; [|discriminate].
  destruct (apply_jitter p j v u) as [d'|] eqn:E; [|discriminate]. intro H. injection H as <-. eauto.
Qed.
