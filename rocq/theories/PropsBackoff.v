(** Properties of the backoff strategies, rexecutor/src/backoff.rs. *)
From Coq Require Import Reals Lra SpecFloat.
From Flocq Require Import Core BinarySingleNaN.
From Verif Require Import Base Chrono Backoff BackoffProofs BackoffFloat.

(** * What a user writes *)

(** One of the four constructors followed by any number of setters in any order. *)
Inductive choice :=
| CConstant (d : Z)
| CExponential (b : Z)
| CLinear (f : Z)
| CPolynomial (f k : Z).
Inductive setting := SMax (m : Z) | SJitter (j : jitter) | SMin (m : Z) | SOffset (o : Z).

Definition base_of (c : choice) : backoff_strategy :=
  match c with
  | CConstant d => bs_constant d
  | CExponential b => bs_exponential b
  | CLinear f => bs_linear f
  | CPolynomial f k => bs_polynomial f k
  end.
Definition set (b : backoff_strategy) (x : setting) : backoff_strategy :=
  match x with
  | SMax m => with_max m b
  | SJitter j => with_jitter j b
  | SMin m => with_min m b
  | SOffset o => with_offset o b
  end.
Definition configure (c : choice) (l : list setting) : backoff_strategy := fold_left set l (base_of c).

(** The last setting of each kind counts. *)
Definition pick {A} (f : setting -> option A) (l : list setting) : option A :=
  fold_left (fun o x => match f x with Some a => Some a | None => o end) l None.
Definition max_of := pick (fun x => match x with SMax m => Some m | _ => None end).
Definition jitter_of := pick (fun x => match x with SJitter j => Some j | _ => None end).
Definition min_of := pick (fun x => match x with SMin m => Some m | _ => None end).
Definition offset_of := pick (fun x => match x with SOffset o => Some o | _ => None end).
Definition or_zero (o : option Z) : Z := match o with Some z => z | None => 0 end.

(** The documented delay in nanoseconds.  Exponential backoff works in whole seconds. *)
Definition delay (c : choice) (mx : option Z) (a : Z) : Z :=
  match c with
  | CConstant d => d
  | CExponential b => cap (option_map whole_seconds mx) (whole_seconds b ^ a) * 1000000000
  | CLinear f => cap mx (f * a)
  | CPolynomial f k => cap mx (f * a ^ k)
  end.

(** Values of the Rust types, and a [u16] attempt. *)
Definition setting_ok (x : setting) : Prop :=
  match x with SMax m | SMin m | SOffset m => in_delta m = true | SJitter (Absolute d) => in_delta d = true | _ => True end.
Definition choice_ok (c : choice) : Prop :=
  match c with
  | CConstant d | CExponential d | CLinear d => in_delta d = true
  | CPolynomial f k => in_delta f = true /\ 0 <= k <= 4294967295
  end.
Definition config_ok (c : choice) (l : list setting) (a : Z) : Prop :=
  choice_ok c /\ Forall setting_ok l /\ 0 <= a <= 65535.

(** No intermediate result leaves its type. *)
Definition fits (c : choice) (mx : option Z) (a : Z) : Prop :=
  match c with
  | CConstant _ => True
  | CExponential b => 0 <= b /\ in_delta (delay c mx a) = true
  | CLinear f => in_delta (f * a) = true
  | CPolynomial f k => a ^ k <= 2147483647 /\ in_delta (f * a ^ k) = true
  end.

(** The same as a [strategy]. *)
Definition strategy_of (c : choice) (mx : option Z) : strategy :=
  match c with
  | CConstant d => Constant d
  | CExponential b => Exponential b mx
  | CLinear f => Linear f mx
  | CPolynomial f k => Polynomial f k mx
  end.

Lemma configured c l :
  configure c l = mk_bs (strategy_of c (max_of l)) (jitter_of l) (offset_of l) (or_zero (min_of l)).
Proof.
  unfold configure. induction l as [|x l IH] using rev_ind; [destruct c; reflexivity|].
  rewrite fold_left_app. cbn [fold_left]. rewrite IH.
  unfold max_of, jitter_of, offset_of, min_of, pick. rewrite !fold_left_app. cbn [fold_left].
  destruct x, c; reflexivity.
Qed.

Lemma pick_ok {A} (f : setting -> option A) (P : A -> Prop) l :
  Forall setting_ok l -> (forall x a, setting_ok x -> f x = Some a -> P a) ->
  forall a, pick f l = Some a -> P a.
Proof.
  intros Hl Hf. unfold pick. induction l as [|x l IH] using rev_ind; [discriminate|].
  apply Forall_app in Hl. destruct Hl as [Hl Hx]. inversion Hx; subst. rewrite fold_left_app. cbn [fold_left].
  intros a Ha. destruct (f x) as [b|] eqn:E.
  - injection Ha as <-. eauto.
  - auto.
Qed.

Lemma max_ok l : Forall setting_ok l -> opt_delta (max_of l).
Proof.
  intros H d Hd. revert d Hd. apply (pick_ok _ (fun d => in_delta d = true) l H).
  intros [m|j|m|o] a; cbn; try discriminate. intros Hm E. injection E as <-. exact Hm.
Qed.

Lemma strategy_ok c l a : config_ok c l a -> well_formed (strategy_of c (max_of l)).
Proof.
  intros [Hc [Hl _]]. pose proof (max_ok l Hl). destruct c; cbn in *; tauto.
Qed.

(** * C33 Backoff formula and bounds *)

(** Whenever nothing overflows, the delay is what the documentation says. *)
Theorem C33_formula : forall p c l a u,
  config_ok c l a -> jitter_of l = None ->
  fits c (max_of l) a -> in_delta (delay c (max_of l) a + or_zero (offset_of l)) = true ->
  backoff p (configure c l) a u
  = Some (Z.max (delay c (max_of l) a + or_zero (offset_of l)) (or_zero (min_of l))).
Proof.
  intros p c l a u Hok Hj Hf Ho. rewrite configured, Hj, backoff_none.
  assert (Hs : strategy_backoff p (strategy_of c (max_of l)) a = Some (delay c (max_of l) a)).
  { rewrite strategy_defined; [|eapply strategy_ok; exact Hok|apply Hok|destruct c; exact Hf].
    destruct c; reflexivity. }
  rewrite Hs. destruct (offset_of l) as [o|]; cbn [or_zero] in *.
  - unfold delta_add. rewrite Ho. reflexivity.
  - rewrite Z.add_0_r. reflexivity.
Qed.
Print Assumptions C33_formula.

(** A delay that is returned at all is the documented one: with overflow checks nothing else comes
    back, and without them only the power of a polynomial backoff can go wrong. *)
Theorem C33_no_wrong_delay : forall p c l a u d,
  config_ok c l a -> jitter_of l = None ->
  match c with
  | CExponential b => 0 <= b
  | CPolynomial _ k => p = Debug \/ a ^ k <= 2147483647
  | _ => True end ->
  backoff p (configure c l) a u = Some d ->
  d = Z.max (delay c (max_of l) a + or_zero (offset_of l)) (or_zero (min_of l)).
Proof.
  intros p c l a u d Hok Hj Hc Hd. rewrite configured, Hj, backoff_none in Hd.
  destruct (strategy_backoff p (strategy_of c (max_of l)) a) as [d0|] eqn:E; [|discriminate].
  apply strategy_formula in E; [|eapply strategy_ok; exact Hok|apply Hok|destruct c; exact Hc].
  assert (E2 : d0 = delay c (max_of l) a) by (rewrite E; destruct c; reflexivity).
  destruct (offset_of l) as [o|]; cbn [or_zero].
  - destruct (delta_add d0 o) as [d1|] eqn:E3; [|discriminate]. apply delta_add_some in E3.
    destruct E3 as [-> _]. congruence.
  - rewrite Z.add_0_r. congruence.
Qed.
Print Assumptions C33_no_wrong_delay.

(** The minimum and the maximum are respected whatever the strategy, also a user-defined one. *)
Theorem C33_bounds : forall p b a u d,
  backoff p b a u = Some d ->
  bs_min b <= d
  /\ (forall f m, bs_strategy b = Linear f (Some m) \/ (exists k, bs_strategy b = Polynomial f k (Some m)) ->
        bs_jitter b = None -> bs_offset b = None -> d <= Z.max m (bs_min b)).
Proof.
  intros p [s j off mn] a u d Hd. cbn [bs_min bs_strategy bs_jitter bs_offset]. unfold backoff in Hd.
  cbn [bs_min bs_strategy bs_jitter bs_offset] in Hd. split.
  - destruct (strategy_backoff p s a) as [d0|]; [|discriminate].
    destruct (match off with Some o => delta_add d0 o | None => Some d0 end) as [d1|]; [|discriminate].
    destruct (match j with Some j => apply_jitter p j d1 u | None => Some d1 end) as [d2|]; [|discriminate].
    assert (d = Z.max d2 mn) by congruence. lia.
  - intros f m Hs -> ->. destruct (strategy_backoff p s a) as [d0|] eqn:E; [|discriminate].
    assert (d = Z.max d0 mn) as -> by congruence. assert (d0 <= m); [|lia].
    destruct Hs as [->|[k ->]]; cbn [strategy_backoff] in E.
    + destruct (delta_mul f a) as [b|]; [|discriminate]. assert (d0 = Z.min b m) by congruence. lia.
    + destruct (i32_arith p (a ^ k)) as [x|]; [|discriminate].
      destruct (delta_mul f x) as [b|]; [|discriminate]. assert (d0 = Z.min b m) by congruence. lia.
Qed.
Print Assumptions C33_bounds.

Definition sec (z : Z) : Z := z * 1000000000.

Local Ltac config := split; [vm_compute; intuition congruence | split; [repeat constructor | lia]].

(** Polynomial backoff, 3 s times the cube of the attempt, capped at 50 s, with an offset of 2 s
    and settings overridden. *)
Example C33_example :
  let l := [SMax (sec 100); SOffset (sec 2); SMin (sec 7); SMax (sec 50)] in
  config_ok (CPolynomial (sec 3) 3) l 2 /\ fits (CPolynomial (sec 3) 3) (max_of l) 2
  /\ map (fun a => backoff Debug (configure (CPolynomial (sec 3) 3) l) a 0) [0; 1; 2; 3]
     = [Some (sec 7); Some (sec 7); Some (sec 26); Some (sec 52)]
  /\ map (fun a => backoff Debug (configure (CExponential (sec 3)) l) a 0) [0; 1; 2; 3; 4]
     = [Some (sec 7); Some (sec 7); Some (sec 11); Some (sec 29); Some (sec 52)]
  /\ map (fun a => backoff Debug (configure (CLinear (sec 3)) l) a 0) [0; 4; 40]
     = [Some (sec 7); Some (sec 14); Some (sec 52)]
  /\ backoff Debug (configure (CConstant (sec 9)) l) 5 0 = Some (sec 11).
Proof.
  cbn zeta. split; [config|].
  split; [vm_compute; split; [discriminate|reflexivity]|]. vm_compute. auto 6.
Qed.

(** A user-defined strategy gets the same treatment. *)
Theorem C33_custom : forall p f a u d off mn,
  f a = Some d -> in_delta (d + or_zero off) = true ->
  backoff p (mk_bs (Custom f) None off mn) a u = Some (Z.max (d + or_zero off) mn).
Proof.
  intros p f a u d off mn Hf Hd. rewrite backoff_none. cbn [strategy_backoff]. rewrite Hf.
  destruct off as [o|]; cbn [or_zero] in *; [unfold delta_add; rewrite Hd|rewrite Z.add_0_r]; reflexivity.
Qed.
Print Assumptions C33_custom.

Example C33_custom_example :
  backoff Debug (with_min (sec 6) (with_offset (sec 1) (bs_new (Custom (fun a => Some (sec (10 - a))))))) 3 0 = Some (sec 8)
  /\ backoff Debug (with_min (sec 6) (with_offset (sec 1) (bs_new (Custom (fun a => Some (sec (10 - a))))))) 9 0 = Some (sec 6).
Proof. vm_compute. auto. Qed.

(** * C34 Backoff never shrinks as attempts grow *)

(** Missing from the full statement: exponential backoff with a base below one second at attempt 0,
    and polynomial backoff whose power overflows [i32] without overflow checks. *)
Theorem C34_monotone_partial : forall p c l a1 a2 u1 u2 d1 d2,
  config_ok c l a1 -> config_ok c l a2 -> jitter_of l = None -> a1 <= a2 ->
  match c with
  | CConstant _ => True
  | CExponential b => 1000000000 <= b \/ (0 <= b /\ 1 <= a1)
  | CLinear f => 0 <= f
  | CPolynomial f k => 0 <= f /\ (p = Debug \/ a2 ^ k <= 2147483647)
  end ->
  backoff p (configure c l) a1 u1 = Some d1 -> backoff p (configure c l) a2 u2 = Some d2 -> d1 <= d2.
Proof.
  intros p c l a1 a2 u1 u2 d1 d2 H1 H2 Hj Hle Hc E1 E2.
  assert (Hpow : forall k, 0 <= k -> a1 ^ k <= a2 ^ k).
  { intros k Hk. apply Z.pow_le_mono_l. destruct H1 as [_ [_ H1]]. lia. }
  apply C33_no_wrong_delay in E1, E2; try assumption.
  - subst. apply Z.max_le_compat_r. apply Z.add_le_mono_r.
    replace (delay c (max_of l) a1) with (nominal (strategy_of c (max_of l)) a1) by (destruct c; reflexivity).
    replace (delay c (max_of l) a2) with (nominal (strategy_of c (max_of l)) a2) by (destruct c; reflexivity).
    apply nominal_mono; [|destruct H1 as [_ [_ H1]]; lia]. destruct c; cbn; auto.
    destruct H1 as [[_ H1] _]. tauto.
  - destruct c; auto. lia. destruct Hc. auto.
  - destruct c; auto. lia. destruct Hc as [_ [Hc|Hc]]; auto. right. destruct H1 as [[_ [Hk _]] _].
    specialize (Hpow k Hk). lia.
Qed.
Print Assumptions C34_monotone_partial.

Example C34_example :
  let l := [SMax (sec 604800); SMin (sec 3)] in
  config_ok (CExponential (sec 4)) l 2 /\ config_ok (CExponential (sec 4)) l 30
  /\ backoff Release (configure (CExponential (sec 4)) l) 2 0 = Some (sec 16)
  /\ backoff Release (configure (CExponential (sec 4)) l) 30 0 = Some (sec 604800).
Proof. cbn zeta. do 2 (split; [config|]). vm_compute. auto. Qed.

(** A base of half a second waits 1 s, then nothing; a square without overflow checks wraps around. *)
Theorem C34_monotone_refuted :
  (exists c a1 a2 d1 d2, config_ok c [] a1 /\ config_ok c [] a2 /\ a1 < a2
     /\ backoff Debug (configure c []) a1 0 = Some d1 /\ backoff Debug (configure c []) a2 0 = Some d2 /\ d2 < d1)
  /\ (exists f k a1 a2 d1 d2, config_ok (CPolynomial f k) [] a1 /\ config_ok (CPolynomial f k) [] a2 /\ 0 <= f
     /\ 1 <= a1 < a2
     /\ backoff Release (configure (CPolynomial f k) []) a1 0 = Some d1
     /\ backoff Release (configure (CPolynomial f k) []) a2 0 = Some d2 /\ d2 < d1).
Proof.
  split.
  - exists (CExponential 500000000), 0, 1, (sec 1), 0.
    do 2 (split; [config|]). vm_compute. auto.
  - exists (sec 1), 2, 46340, 46341, (sec 2147395600), 0.
    do 2 (split; [config|]). split; [vm_compute; congruence|]. split; [lia|]. vm_compute. auto.
Qed.
Print Assumptions C34_monotone_refuted.

(** * C35 Jitter stays within its band *)

(** [v] is what the same configuration gives without jitter and minimum. *)
Definition plain p s off a v : Prop := forall u, backoff p (mk_bs s None off delta_min) a u = Some v.

Lemma plain_value p s off a v :
  well_formed s -> plain p s off a v ->
  (match strategy_backoff p s a with
   | None => None
   | Some d => match off with Some o => delta_add d o | None => Some d end
   end) = Some v /\ in_delta v = true.
Proof.
  intros Hs Hv. specialize (Hv 0). rewrite backoff_none in Hv.
  destruct (strategy_backoff p s a) as [d|] eqn:E; [|discriminate].
  assert (Hd : in_delta d = true).
  { destruct s as [d0|b m|f m|f k m|f]; cbn [strategy_backoff well_formed] in *.
    - congruence.
    - cbn zeta in E. apply delta_seconds_some in E. tauto.
    - destruct (delta_mul f a) as [x|] eqn:Ex; [|discriminate]. apply delta_mul_some in Ex. destruct Ex as [-> Ex].
      destruct Hs as [_ Hm]. destruct m as [m|]; [|congruence]. specialize (Hm m eq_refl).
      assert (d = Z.min (f * a) m) by congruence. apply in_delta_spec in Ex, Hm. apply in_delta_spec. lia.
    - destruct (i32_arith p (a ^ k)) as [y|]; [|discriminate].
      destruct (delta_mul f y) as [x|] eqn:Ex; [|discriminate]. apply delta_mul_some in Ex. destruct Ex as [-> Ex].
      destruct Hs as [_ [_ Hm]]. destruct m as [m|]; [|congruence]. specialize (Hm m eq_refl).
      assert (d = Z.min (f * y) m) by congruence. apply in_delta_spec in Ex, Hm. apply in_delta_spec. lia.
    - eauto. }
  destruct off as [o|].
  - destruct (delta_add d o) as [x|] eqn:Ex; [|discriminate]. apply delta_add_some in Ex. destruct Ex as [-> Ex].
    assert (v = Z.max (d + o) delta_min) by congruence. apply in_delta_spec in Ex.
    assert (v = d + o) by lia. subst v. split; [congruence|]. apply in_delta_spec. lia.
  - assert (v = Z.max d delta_min) by congruence. apply in_delta_spec in Hd.
    assert (v = d) by lia. subst v. split; [congruence|]. apply in_delta_spec. lia.
Qed.

Lemma jitter_band p s j off mn a u v d :
  well_formed s -> plain p s off a v -> backoff p (mk_bs s (Some j) off mn) a u = Some d ->
  exists draw, Z.abs draw <= jitter_ms j v /\ d = Z.max (v + draw * 1000000) mn.
Proof.
  intros Hs Hv Hd. destruct (plain_value _ _ _ _ _ Hs Hv) as [Hv1 _].
  destruct (backoff_jitter _ _ _ _ _ _ _ _ Hd) as [v' [d' [H1 [H2 ->]]]].
  assert (v' = v) by congruence. subst v'. destruct (apply_jitter_spec _ _ _ _ _ H2) as [H0 [draw [H3 [-> _]]]].
  exists draw. split; [lia|reflexivity].
Qed.

Lemma jitter_reach p s j off mn a v k :
  well_formed s -> plain p s off a v -> Z.abs k <= jitter_ms j v -> in_delta (v + k * 1000000) = true ->
  in_delta (k * 1000000) = true ->
  exists u, backoff p (mk_bs s (Some j) off mn) a u = Some (Z.max (v + k * 1000000) mn).
Proof.
  intros Hs Hv Hk Hd Hd2. destruct (plain_value _ _ _ _ _ Hs Hv) as [Hv1 _].
  destruct (random_range_all p (jitter_ms j v) k ltac:(lia)) as [u Hu]. exists u.
  unfold backoff. cbn [bs_strategy bs_jitter bs_offset bs_min].
  destruct (strategy_backoff p s a) as [d0|]; [|discriminate].
  destruct (match off with Some o => delta_add d0 o | None => Some d0 end) as [v'|]; [|discriminate].
  injection Hv1 as ->. unfold apply_jitter. rewrite Hu. unfold delta_milliseconds, ns_per_ms. cbn zeta.
  rewrite Hd2. unfold delta_add. cbn zeta. rewrite Hd. reflexivity.
Qed.

(** Absolute jitter: within the configured amount of the plain delay, cut off at the minimum; and
    every whole number of milliseconds within the amount is a possible draw. *)
Theorem C35_absolute : forall p s off mn j a v,
  well_formed s -> plain p s off a v ->
  (forall u d, backoff p (mk_bs s (Some (Absolute j)) off mn) a u = Some d ->
     exists x, Z.abs (x - v) <= Z.abs j /\ d = Z.max x mn)
  /\ (forall k, Z.abs k * 1000000 <= j -> in_delta (v + k * 1000000) = true -> in_delta j = true ->
     exists u, backoff p (mk_bs s (Some (Absolute j)) off mn) a u = Some (Z.max (v + k * 1000000) mn)).
Proof.
  intros p s off mn j a v Hs Hv. split.
  - intros u d Hd. destruct (jitter_band _ _ _ _ _ _ _ _ _ Hs Hv Hd) as [draw [H1 ->]].
    exists (v + draw * 1000000). split; [|reflexivity].
    destruct (Z.le_gt_cases 0 j) as [Hj|Hj].
    + destruct (absolute_ms j v Hj) as [_ [H2 _]]. lia.
    + assert (jitter_ms (Absolute j) v <= 0).
      { cbn. unfold num_milliseconds, ns_per_ms.
        rewrite <- (Z.opp_involutive j), Z.quot_opp_l by lia. pose proof (Z.quot_pos (- j) 1000000). lia. }
      lia.
  - intros k Hk Hin Hj. destruct (absolute_ms j v ltac:(lia)) as [_ [_ H3]].
    apply jitter_reach; auto; [lia|]. apply in_delta_spec in Hj. apply in_delta_spec. unfold delta_min in *. lia.
Qed.
Print Assumptions C35_absolute.

Lemma ms_in_i64 v : in_delta v = true -> in_i64 (num_milliseconds v) = true.
Proof.
  intro H. apply in_delta_spec in H. unfold in_i64. rewrite andb_true_iff, !Z.leb_le.
  unfold num_milliseconds, delta_min, delta_max, ns_per_ms in *.
  assert (Hq : Z.quot (- (i64_max * 1000000)) 1000000 <= Z.quot v 1000000 <= Z.quot (i64_max * 1000000) 1000000)
    by (split; apply Z.quot_le_mono; lia).
  rewrite Z.quot_opp_l, Z.quot_mul in Hq by lia. unfold i64_min, i64_max in *. lia.
Qed.

(** Relative jitter: within the configured fraction [r] of the plain delay in milliseconds, up to
    half a millisecond from rounding and the error of two [f64] operations; and every whole number
    of milliseconds within the fraction less that error is a possible draw. *)
Theorem C35_relative : forall p s off mn r a v,
  well_formed s -> plain p s off a v -> is_f64 r -> is_finite_f64 r ->
  let band := (IZR (Z.quot v 1000000) * f64_real r)%R in
  let half := (/2 + bpow radix2 (-1075))%R in
  (forall u d, backoff p (mk_bs s (Some (Relative r)) off mn) a u = Some d ->
     exists x, (Rabs (IZR (x - v) / 1000000) <= Rabs band * (1 + bpow radix2 (-51)) + half)%R
       /\ d = Z.max x mn)
  /\ (forall k, (IZR (Z.abs k) <= band * (1 - bpow radix2 (-51)) - half)%R -> (Rabs band <= bpow radix2 62)%R ->
     in_delta (v + k * 1000000) = true -> in_delta (k * 1000000) = true ->
     exists u, backoff p (mk_bs s (Some (Relative r)) off mn) a u = Some (Z.max (v + k * 1000000) mn)).
Proof.
  intros p s off mn r a v Hs Hv Hr Hf. cbn zeta. destruct (plain_value _ _ _ _ _ Hs Hv) as [_ Hvd].
  destruct (relative_ms_correct r v Hr Hf (ms_in_i64 _ Hvd)) as [B1 B2]. cbn zeta in B1, B2.
  change (Z.quot v 1000000) with (num_milliseconds v).
  set (band := (IZR (num_milliseconds v) * f64_real r)%R) in *. split.
  - intros u d Hd. destruct (jitter_band _ _ _ _ _ _ _ _ _ Hs Hv Hd) as [draw [H1 ->]].
    exists (v + draw * 1000000). split; [|reflexivity].
    replace (v + draw * 1000000 - v) with (draw * 1000000) by ring. rewrite mult_IZR.
    replace (IZR draw * 1000000 / 1000000)%R with (IZR draw) by field.
    apply Rle_trans with (2 := B1). rewrite <- abs_IZR.
    apply Rle_trans with (IZR (jitter_ms (Relative r) v)); [apply IZR_le; exact H1|apply Rle_abs].
  - intros k Hk Hb Hd1 Hd2. apply jitter_reach; auto. apply le_IZR. apply Rle_trans with (1 := Hk).
    specialize (B2 Hb). pose proof (bpow_gt_0 radix2 (-51)) as E1. pose proof (bpow_gt_0 radix2 (-1075)) as E2.
    assert (E3 : (bpow radix2 (-51) < 1)%R) by (apply (bpow_lt radix2 (-51) 0); lia).
    assert (Hpos : (0 <= band)%R).
    { assert (0 <= IZR (Z.abs k))%R by (apply IZR_le; lia). nra. }
    rewrite (Rabs_pos_eq _ Hpos) in B2. rewrite Rabs_minus_sym in B2. pose proof (Rle_abs (band - IZR (jitter_ms (Relative r) v))). lra.
Qed.
Print Assumptions C35_relative.

(** An hour with a quarter of relative jitter, or with ten minutes of absolute jitter. *)
Definition f64_quarter : f64 := S754_finite false 4503599627370496 (-54).

Example C35_example :
  well_formed (Constant (sec 3600)) /\ plain Debug (Constant (sec 3600)) None 3 (sec 3600)
  /\ is_f64 f64_quarter /\ is_finite_f64 f64_quarter /\ f64_real f64_quarter = (/4)%R
  /\ backoff Debug (configure (CConstant (sec 3600)) [SJitter (Relative f64_quarter)]) 3 0 = Some (sec 2700)
  /\ backoff Debug (configure (CConstant (sec 3600)) [SJitter (Relative f64_quarter)]) 3 1800000 = Some (sec 4500)
  /\ backoff Debug (configure (CConstant (sec 3600)) [SJitter (Absolute (sec 600))]) 3 1200000 = Some (sec 4200)
  /\ backoff Debug (configure (CConstant (sec 3600)) [SJitter (Absolute (sec 600)); SMin (sec 3500)]) 3 0 = Some (sec 3500).
Proof.
  split; [reflexivity|]. split; [intro u; reflexivity|]. do 2 (split; [reflexivity|]).
  split; [|vm_compute; auto].
  unfold f64_real, SF2R, f64_quarter, F2R. simpl (cond_Zopp _ _). cbn [Fnum Fexp].
  change 4503599627370496%Z with (Zpower radix2 52). rewrite IZR_Zpower by lia. rewrite <- bpow_plus.
  change (52 + -54)%Z with (-2)%Z. simpl. lra.
Qed.

Lemma times_infinity z b : in_i64 z = true -> z <> 0 ->
  f64_mul (i64_as_f64 z) (S754_infinity b) = S754_infinity (xorb (z <? 0) b).
Proof.
  intros Hz H0. rewrite i64_as_f64_bin. destruct (i64_bin_correct z Hz) as [Hf [eps [He Hr]]].
  assert (E53 : (bpow radix2 (-53) < 1)%R) by (apply (bpow_lt radix2 (-53) 0); lia).
  apply Rabs_le_inv in He.
  assert (Hs : (IZR z < 0 -> B2R (i64_bin z) < 0)%R /\ (0 < IZR z -> 0 < B2R (i64_bin z))%R) by (rewrite Hr; split; intro; nra).
  assert (Hc : ((IZR z < 0)%R /\ z < 0) \/ ((0 < IZR z)%R /\ 0 < z)).
  { destruct (Z.lt_total z 0) as [H|[H|H]]; [left|contradiction|right]; split; try exact H; apply IZR_lt; exact H. }
  destruct (i64_bin z) as [s|s| |s m e B]; try discriminate.
  - cbn in Hs. destruct Hc as [[Hc _]|[Hc _]]; [apply (proj1 Hs) in Hc|apply (proj2 Hs) in Hc]; lra.
  - cbn [B2SF f64_mul SFmul]. f_equal. f_equal. cbn [B2R] in Hs. destruct s.
    + destruct Hc as [[_ Hc]|[Hc _]]; [symmetry; apply Z.ltb_lt; exact Hc|]. apply (proj2 Hs) in Hc.
      assert (F2R (Float radix2 (cond_Zopp true (Zpos m)) e) < 0)%R by (apply F2R_lt_0; reflexivity). lra.
    + destruct Hc as [[Hc _]|[_ Hc]]; [|symmetry; apply Z.ltb_ge; lia]. apply (proj1 Hs) in Hc.
      assert (0 < F2R (Float radix2 (cond_Zopp false (Zpos m)) e))%R by (apply F2R_gt_0; reflexivity). lra.
Qed.
(** An infinite fraction: a plain delay of less than a millisecond either way has no jitter, a longer
    one with the sign of the fraction gets any number of milliseconds that fits, and the others
    panic. *)
Theorem C35_infinite : forall p s off mn b a v,
  well_formed s -> plain p s off a v ->
  let j := Some (Relative (S754_infinity b)) in
  (-1000000 < v < 1000000 -> forall u, backoff p (mk_bs s j off mn) a u = Some (Z.max v mn))
  /\ ((if b then v <= -1000000 else 1000000 <= v) ->
        forall k, in_delta (v + k * 1000000) = true -> in_delta (k * 1000000) = true ->
        exists u, backoff p (mk_bs s j off mn) a u = Some (Z.max (v + k * 1000000) mn))
  /\ ((if b then 1000000 <= v else v <= -1000000) -> forall u, backoff p (mk_bs s j off mn) a u = None).
Proof.
  intros p s off mn b a v Hs Hv j. destruct (plain_value _ _ _ _ _ Hs Hv) as [Hv1 Hvd].
  pose proof (ms_in_i64 _ Hvd) as Hms.
  assert (Hb : forall u, backoff p (mk_bs s j off mn) a u
     = match apply_jitter p (Relative (S754_infinity b)) v u with None => None | Some d => Some (Z.max d mn) end).
  { intro u. unfold backoff, j. cbn [bs_strategy bs_jitter bs_offset bs_min].
    destruct (strategy_backoff p s a) as [d0|]; [|discriminate].
    destruct (match off with Some o => delta_add d0 o | None => Some d0 end) as [v'|]; [|discriminate].
    injection Hv1 as ->. reflexivity. }
  assert (Hq : (0 < num_milliseconds v <-> 1000000 <= v) /\ (num_milliseconds v < 0 <-> v <= -1000000)).
  { unfold num_milliseconds, ns_per_ms. pose proof (Z.quot_rem v 1000000 ltac:(lia)) as E.
    destruct (Z.le_gt_cases 0 v).
    - pose proof (Z.rem_bound_pos v 1000000 ltac:(lia) ltac:(lia)). lia.
    - pose proof (Z.rem_bound_abs v 1000000 ltac:(lia)). pose proof (Z.rem_nonpos v 1000000 ltac:(lia) ltac:(lia)). lia. }
  split; [|split].
  - intros Hz u. rewrite Hb. unfold apply_jitter, jitter_ms.
    assert (E : num_milliseconds v = 0) by (destruct Hq as [[Q1 _] [Q2 _]]; destruct (Z.lt_total (num_milliseconds v) 0) as [H|[H|H]]; [apply Q2 in H; lia|exact H|apply Q1 in H; lia]).
    rewrite E. change (f64_mul (i64_as_f64 0) (S754_infinity b)) with S754_nan.
    cbn [f64_round_as_i64]. unfold random_range. change (0 =? i64_min) with false. change (0 <? 0) with false.
    change (2 * 0 + 1) with 1. rewrite Z.mod_1_r. change (delta_milliseconds (- 0 + 0)) with (Some 0). cbv iota beta.
    unfold delta_add. cbv zeta. rewrite Z.add_0_r, Hvd. reflexivity.
  - intros Hsg k Hd1 Hd2. apply jitter_reach; auto. unfold jitter_ms.
    rewrite times_infinity; [|exact Hms|destruct Hq as [[_ Q1] [_ Q2]]; destruct b; first [specialize (Q1 Hsg); lia|specialize (Q2 Hsg); lia]].
    replace (xorb (num_milliseconds v <? 0) b) with false.
    + cbn [f64_round_as_i64]. apply in_delta_spec in Hd2. unfold delta_min, delta_max, ns_per_ms, i64_max in *. lia.
    + destruct b; [replace (num_milliseconds v <? 0) with true by (symmetry; apply Z.ltb_lt; apply Hq; exact Hsg)
                  |replace (num_milliseconds v <? 0) with false by (symmetry; apply Z.ltb_ge; apply Z.lt_le_incl; apply Hq; exact Hsg)]; reflexivity.
  - intros Hsg u. rewrite Hb. unfold apply_jitter, jitter_ms.
    rewrite times_infinity; [|exact Hms|destruct Hq as [[_ Q1] [_ Q2]]; destruct b; first [specialize (Q1 Hsg); lia|specialize (Q2 Hsg); lia]].
    replace (xorb (num_milliseconds v <? 0) b) with true.
    + cbn [f64_round_as_i64]. unfold random_range. rewrite Z.eqb_refl. destruct p; reflexivity.
    + destruct b; [replace (num_milliseconds v <? 0) with false by (symmetry; apply Z.ltb_ge; apply Z.lt_le_incl; apply Hq; exact Hsg)
                  |replace (num_milliseconds v <? 0) with true by (symmetry; apply Z.ltb_lt; apply Hq; exact Hsg)]; reflexivity.
Qed.
Print Assumptions C35_infinite.
Example C35_infinite_example :
  well_formed (Constant (sec 3)) /\ plain Debug (Constant (sec 3)) None 3 (sec 3)
  /\ backoff Release (mk_bs (Constant (sec 3)) (Some (Relative (S754_infinity false))) None 0) 1 (i64_max + 7) = Some (sec 3 + 7000000)
  /\ backoff Release (mk_bs (Constant (sec 3)) (Some (Relative (S754_infinity true))) None 0) 1 5 = None.
Proof. split; [reflexivity|]. split; [intro u; reflexivity|]. vm_compute. auto. Qed.

(** * C36 Default retry policy *)

Lemma default_nominal a : 0 <= a ->
  nominal (Exponential (sec 4) (Some (sec 604800))) a = Z.min (4 ^ a) 604800 * 1000000000.
Proof. reflexivity. Qed.

(** Attempts from 10 on are capped. *)
Lemma pow4_big a : 10 <= a -> 604800 < 4 ^ a.
Proof.
  intro H. apply Z.lt_le_trans with (4 ^ 10); [reflexivity|]. apply Z.pow_le_mono_r; lia.
Qed.

Lemma default_ms a : 0 <= a ->
  jitter_ms (Relative f64_tenth) (Z.min (4 ^ a) 604800 * 1000000000) = Z.min (4 ^ a) 604800 * 100.
Proof.
  intro H. destruct (Z.le_gt_cases 10 a) as [Ha|Ha].
  - rewrite Z.min_r by (pose proof (pow4_big a Ha); lia). vm_compute. reflexivity.
  - assert (a = 0 \/ a = 1 \/ a = 2 \/ a = 3 \/ a = 4 \/ a = 5 \/ a = 6 \/ a = 7 \/ a = 8 \/ a = 9) by lia.
    repeat (destruct H0 as [->|H0]; [vm_compute; reflexivity|]). subst. vm_compute. reflexivity.
Qed.

Theorem C36_default_policy : forall p a u,
  0 <= a <= 65535 ->
  let n := Z.min (4 ^ a) (7 * 24 * 3600) * 1000000000 in
  exists d, backoff p default_backoff a u = Some d /\ 9 * n <= 10 * d <= 11 * n /\ 0 < d.
Proof.
  intros p a u Ha. cbn zeta. change (7 * 24 * 3600) with 604800.
  set (n := Z.min (4 ^ a) 604800 * 1000000000).
  assert (Hpos : 0 < 4 ^ a) by (apply Z.pow_pos_nonneg; lia).
  assert (Hn : 1000000000 <= n <= sec 604800) by (unfold n, sec; lia).
  assert (Hin : forall z, - sec 700000 <= z <= sec 700000 -> in_delta z = true).
  { intros z Hz. apply in_delta_spec. unfold sec in Hz. unfold delta_min, delta_max, i64_max, ns_per_ms. lia. }
  unfold default_backoff. change (7 * 86400 * ns_per_s) with (sec 604800). change (4 * ns_per_s) with (sec 4).
  unfold with_jitter, with_max, bs_exponential, bs_new. cbn [bs_strategy bs_jitter bs_offset bs_min].
  unfold backoff. cbn [bs_strategy bs_jitter bs_offset bs_min].
  rewrite strategy_defined.
  2:{ split; [reflexivity|]. intros d E. injection E as <-. reflexivity. }
  2: lia.
  2:{ split; [unfold sec; lia|]. rewrite default_nominal by lia. apply Hin. fold n. unfold sec in *. lia. }
  rewrite default_nominal by lia. fold n.
  assert (Hms : jitter_ms (Relative f64_tenth) n = Z.min (4 ^ a) 604800 * 100) by (apply default_ms; lia).
  assert (Hms2 : jitter_ms (Relative f64_tenth) n * 1000000 * 10 = n) by (rewrite Hms; unfold n; lia).
  destruct (apply_jitter_defined p (Relative f64_tenth) n u) as [d Hd].
  - rewrite Hms. lia.
  - apply Hin. unfold sec in *. lia.
  - apply Hin. unfold sec in *. lia.
  - apply Hin. unfold sec in *. lia.
  - rewrite Hd. exists (Z.max d 0). split; [reflexivity|].
    destruct (apply_jitter_spec _ _ _ _ _ Hd) as [_ [draw [H1 [H2 _]]]]. lia.
Qed.
Print Assumptions C36_default_policy.

(** Both ends of the band are possible draws. *)
Example C36_example :
  backoff Debug default_backoff 1 0 = Some (sec 4 - 400000000)
  /\ backoff Debug default_backoff 1 800 = Some (sec 4 + 400000000)
  /\ backoff Debug default_backoff 65535 0 = Some (sec 544320)
  /\ backoff Debug default_backoff 65535 120960000 = Some (sec 665280).
Proof. vm_compute. auto. Qed.

(** * C37 Computing a backoff never crashes *)

(** Missing from the full statement: the configurations excluded by [fits], offsets and jitters
    that leave the range of a duration, and negative jitters. *)
Theorem C37_never_crashes_partial : forall p c l a u,
  config_ok c l a -> fits c (max_of l) a ->
  let v := delay c (max_of l) a + or_zero (offset_of l) in
  in_delta v = true ->
  match jitter_of l with
  | None => True
  | Some j => 0 <= jitter_ms j v
      /\ in_delta (v - jitter_ms j v * 1000000) = true /\ in_delta (v + jitter_ms j v * 1000000) = true
      /\ in_delta (jitter_ms j v * 1000000) = true
  end ->
  exists d, backoff p (configure c l) a u = Some d.
Proof.
  intros p c l a u Hok Hf. cbn zeta. intros Ho Hj. rewrite configured. unfold backoff.
  cbn [bs_strategy bs_jitter bs_offset bs_min].
  assert (Hs : strategy_backoff p (strategy_of c (max_of l)) a = Some (delay c (max_of l) a)).
  { rewrite strategy_defined; [|eapply strategy_ok; exact Hok|apply Hok|destruct c; exact Hf].
    destruct c; reflexivity. }
  rewrite Hs.
  set (v := delay c (max_of l) a + or_zero (offset_of l)) in *.
  enough (H : exists d, (match (match jitter_of l with Some j => apply_jitter p j v u | None => Some v end) with
                         | Some d2 => Some (Z.max d2 (or_zero (min_of l))) | None => None end) = Some d).
  { destruct (offset_of l) as [o|] eqn:E; cbn [or_zero] in v.
    - unfold delta_add. fold v. cbn zeta. rewrite Ho. exact H.
    - replace (delay c (max_of l) a) with v by (unfold v; lia). exact H. }
  destruct (jitter_of l) as [j|]; [|eauto].
  destruct Hj as [J1 [J2 [J3 J4]]].
  destruct (apply_jitter_defined p j _ u J1 J4 J2 J3) as [d Hd]. rewrite Hd. eauto.
Qed.
Print Assumptions C37_never_crashes_partial.

Example C37_example :
  let l := [SMax (sec 604800); SOffset (sec 5); SJitter (Relative f64_tenth)] in
  config_ok (CExponential (sec 4)) l 65535 /\ fits (CExponential (sec 4)) (max_of l) 65535
  /\ jitter_ms (Relative f64_tenth) (delay (CExponential (sec 4)) (max_of l) 65535 + or_zero (offset_of l)) = 60480500.
Proof.
  cbn zeta. split; [config|].
  split; vm_compute; auto. split; [discriminate|reflexivity].
Qed.

(** Crashes: exponential backoff without a maximum; a power that overflows, with overflow checks; a
    linear backoff whose product is out of range, although a maximum is set; negative jitter of
    both kinds; an offset out of range. *)
Theorem C37_never_crashes_refuted : forall u,
  (exists c a, config_ok c [] a /\ c = CExponential (sec 4) /\ a = 27
     /\ forall p, backoff p (configure c []) a u = None)
  /\ (exists c l a, config_ok c l a /\ max_of l = Some (sec 60) /\ c = CPolynomial (sec 1) 2
     /\ backoff Debug (configure c l) a u = None)
  /\ (exists c l a, config_ok c l a /\ max_of l = Some (sec 60) /\ (exists f, c = CLinear f)
     /\ forall p, backoff p (configure c l) a u = None)
  /\ (exists c l a, config_ok c l a /\ jitter_of l = Some (Absolute (- sec 1)) /\ forall p, backoff p (configure c l) a u = None)
  /\ (exists c l a r, config_ok c l a /\ is_f64 r /\ jitter_of l = Some (Relative r) /\ forall p, backoff p (configure c l) a u = None)
  /\ (exists c l a, config_ok c l a /\ c = CConstant (sec 1) /\ jitter_of l = None /\ forall p, backoff p (configure c l) a u = None).
Proof.
  intro u. split; [|split; [|split; [|split; [|split]]]].
  - exists (CExponential (sec 4)), 27. split; [config|]. do 2 (split; [reflexivity|]). intros []; vm_compute; reflexivity.
  - exists (CPolynomial (sec 1) 2), [SMax (sec 60)], 46341. split; [config|]. do 2 (split; [reflexivity|]).
    vm_compute; reflexivity.
  - exists (CLinear (sec 9000000000000)), [SMax (sec 60)], 2000. split; [config|]. split; [reflexivity|].
    split; [eexists; reflexivity|]. intros []; vm_compute; reflexivity.
  - exists (CConstant (sec 60)), [SJitter (Absolute (- sec 1))], 1. split; [config|]. split; [reflexivity|].
    intros []; vm_compute; reflexivity.
  - exists (CConstant (sec 60)), [SJitter (Relative (S754_finite true 4503599627370496 (-54)))], 1,
      (S754_finite true 4503599627370496 (-54)).
    split; [config|]. split; [reflexivity|]. split; [reflexivity|]. intros []; vm_compute; reflexivity.
  - exists (CConstant (sec 1)), [SOffset delta_max], 1. split; [config|]. do 2 (split; [reflexivity|]).
    intros []; vm_compute; reflexivity.
Qed.
Print Assumptions C37_never_crashes_refuted.
