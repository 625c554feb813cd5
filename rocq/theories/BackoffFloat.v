(** The [f64] arithmetic of the relative jitter related to real numbers, through Flocq.  The real
    numbers of the standard library rest on its axioms; they are listed by [Print Assumptions]. *)
From Coq Require Import Reals Lra SpecFloat.
From Flocq Require Import Core Relative BinarySingleNaN.
From Verif Require Import Base Chrono Backoff.

(** The real number an [f64] stands for. *)
Definition f64_real (x : f64) : R := SF2R radix2 x.

(** Bit patterns of binary64: canonical significand and exponent. *)
Definition is_f64 (x : f64) : Prop := SpecFloat.valid_binary 53 1024 x = true.
Definition is_finite_f64 (x : f64) : Prop := is_finite_SF x = true.

Local Instance Hprec : Prec_gt_0 53 := eq_refl.
Local Instance Hmax : Prec_lt_emax 53 1024 := eq_refl.

Lemma round_nearest_even_equiv s m l :
  SpecFloat.round_nearest_even m l = choice_mode mode_NE s m l.
Proof.
  case l; [reflexivity|intro c]. case c; [ | reflexivity..].
  now simpl; unfold Round.cond_incr; case Z.even.
Qed.

Lemma binary_round_aux_equiv sx mx ex lx :
  SpecFloat.binary_round_aux 53 1024 sx mx ex lx = binary_round_aux 53 1024 mode_NE sx mx ex lx.
Proof.
  unfold SpecFloat.binary_round_aux, binary_round_aux.
  set (mrse' := shr_fexp _ _ _). case mrse'; intros mrs' e'; simpl.
  now rewrite (round_nearest_even_equiv sx).
Qed.

Lemma binary_round_equiv s m e :
  SpecFloat.binary_round 53 1024 s m e = binary_round 53 1024 mode_NE s m e.
Proof.
  unfold SpecFloat.binary_round, binary_round, shl_align_fexp.
  set (mez := shl_align _ _ _); case mez as [mz ez]. apply binary_round_aux_equiv.
Qed.

Definition i64_bin (z : Z) : binary_float 53 1024 := binary_normalize 53 1024 Hprec Hmax mode_NE z 0 false.

Lemma i64_as_f64_bin z : i64_as_f64 z = B2SF (i64_bin z).
Proof.
  unfold i64_as_f64, i64_bin. destruct z as [|p|p]; [reflexivity| |];
    simpl; rewrite B2SF_SF2B; apply binary_round_equiv.
Qed.

Lemma f64_mul_bin (x y : binary_float 53 1024) : f64_mul (B2SF x) (B2SF y) = B2SF (Bmult mode_NE x y).
Proof.
  destruct x as [sx|sx| |sx mx ex Bx]; destruct y as [sy|sy| |sy my ey By]; try reflexivity.
  unfold f64_mul. simpl. rewrite B2SF_SF2B. apply binary_round_aux_equiv.
Qed.

Notation rnd := (round radix2 (FLT_exp (3 - 1024 - 53) 53) (Znearest (fun x => negb (Z.even x)))).

Lemma B2R_SF (x : binary_float 53 1024) : B2R x = f64_real (B2SF x).
Proof. destruct x; reflexivity. Qed.

Lemma i64_range z : in_i64 z = true -> (Rabs (IZR z) <= bpow radix2 63)%R.
Proof.
  intro H. unfold in_i64, i64_min, i64_max in H. apply andb_true_iff in H. rewrite !Z.leb_le in H.
  rewrite <- abs_IZR. change (bpow radix2 63) with (IZR (2 ^ 63)). apply IZR_le. lia.
Qed.

(** The conversion of an [i64] has a relative error of at most 2^-53. *)
Lemma i64_bin_correct z :
  in_i64 z = true ->
  is_finite (i64_bin z) = true
  /\ exists eps, (Rabs eps <= bpow radix2 (-53))%R /\ B2R (i64_bin z) = (IZR z * (1 + eps))%R.
Proof.
  intro Hz. pose proof (binary_normalize_correct 53 1024 Hprec Hmax mode_NE z 0 false) as H. cbn zeta in H.
  fold (i64_bin z) in H. simpl round_mode in H.
  assert (Hx : F2R (Float radix2 z 0) = IZR z) by (unfold F2R; simpl; ring). rewrite Hx in H.
  change (SpecFloat.fexp 53 1024) with (FLT_exp (3 - 1024 - 53) 53) in H.
  assert (Hr : exists eps, (Rabs eps <= bpow radix2 (-53))%R /\ rnd (IZR z) = (IZR z * (1 + eps))%R).
  { destruct (Z.eq_dec z 0) as [->|Hn].
    - exists 0%R. rewrite Rabs_R0. split; [apply bpow_ge_0|]. rewrite round_0 by auto with typeclass_instances. ring.
    - destruct (relative_error_N_FLT_ex radix2 (3 - 1024 - 53) 53 Hprec (fun x => negb (Z.even x)) (IZR z)) as [eps [H1 H2]].
      + apply Rle_trans with (bpow radix2 0); [apply bpow_le; lia|]. rewrite <- abs_IZR. apply IZR_le. lia.
      + exists eps. split; [|exact H2]. replace (bpow radix2 (-53)) with (/2 * bpow radix2 (-53 + 1))%R; [exact H1|].
        rewrite bpow_plus. simpl (bpow radix2 1). lra. }
  destruct Hr as [eps [He Hr]].
  assert (Hlt : (Rabs (rnd (IZR z)) < bpow radix2 1024)%R).
  { rewrite Hr, Rabs_mult. apply Rle_lt_trans with (bpow radix2 63 * 2)%R.
    - apply Rmult_le_compat; try apply Rabs_pos; [apply i64_range; exact Hz|].
      apply Rle_trans with (1 := Rabs_triang _ _). rewrite Rabs_R1.
      assert (bpow radix2 (-53) <= bpow radix2 0)%R by (apply bpow_le; lia). simpl (bpow radix2 0) in H0. lra.
    - change (bpow radix2 63 * 2)%R with (bpow radix2 63 * bpow radix2 1)%R. rewrite <- bpow_plus. apply bpow_lt. lia. }
  rewrite Rlt_bool_true in H by exact Hlt. destruct H as [H1 [H2 _]]. split; [exact H2|]. exists eps.
  rewrite H1. auto.
Qed.

Lemma bin_of_f64 x : is_f64 x -> is_finite_f64 x ->
  exists b : binary_float 53 1024, B2SF b = x /\ is_finite b = true /\ B2R b = f64_real x.
Proof.
  intros Hx Hf. exists (SF2B x Hx). rewrite B2SF_SF2B. split; [reflexivity|].
  split; [rewrite is_finite_SF2B; exact Hf|]. rewrite B2R_SF, B2SF_SF2B. reflexivity.
Qed.

(** The product has a relative error of at most 2^-51 and an absolute error of at most 2^-1075. *)
Lemma product_correct ms r :
  in_i64 ms = true -> is_f64 r -> is_finite_f64 r ->
  let y := f64_mul (i64_as_f64 ms) r in
  exists v e eta, (Rabs e <= bpow radix2 (-51))%R /\ (Rabs eta <= bpow radix2 (-1075))%R
    /\ (v = IZR ms * f64_real r * (1 + e) + eta)%R
    /\ ((is_finite_f64 y /\ f64_real y = v)
        \/ (exists s, y = S754_infinity s /\ (bpow radix2 1024 <= Rabs v)%R)).
Proof.
  intros Hms Hr Hf. cbn zeta. destruct (bin_of_f64 r Hr Hf) as [b [<- [Hb1 Hb2]]].
  destruct (i64_bin_correct ms Hms) as [Hz [e1 [He1 Hz1]]].
  rewrite i64_as_f64_bin, f64_mul_bin. rewrite <- Hb2.
  pose proof (Bmult_correct 53 1024 Hprec Hmax mode_NE (i64_bin ms) b) as H. simpl round_mode in H.
  change (SpecFloat.fexp 53 1024) with (FLT_exp (3 - 1024 - 53) 53) in H.
  destruct (relative_error_N_FLT'_ex radix2 (3 - 1024 - 53) 53 Hprec (fun x => negb (Z.even x))
              (B2R (i64_bin ms) * B2R b)) as [e2 [eta [He2 [Heta [_ Hrd]]]]].
  assert (He2' : (Rabs e2 <= bpow radix2 (-53))%R).
  { apply Rle_trans with (1 := He2).
    assert (Hu : u_ro radix2 53 = bpow radix2 (-53)).
    { unfold u_ro. change (- (53) + 1)%Z with (-53 + 1)%Z. rewrite bpow_plus. simpl (bpow radix2 1). lra. }
    rewrite Hu. pose proof (bpow_gt_0 radix2 (-53)) as Hp.
    apply Rmult_le_reg_r with (1 + bpow radix2 (-53))%R; [lra|].
    unfold Rdiv. rewrite Rmult_assoc, Rinv_l by lra. nra. }
  assert (Heta' : (Rabs eta <= bpow radix2 (-1075))%R).
  { replace (bpow radix2 (-1075)) with (/2 * bpow radix2 (3 - 1024 - 53))%R; [exact Heta|].
    change (3 - 1024 - 53)%Z with (-1075 + 1)%Z. rewrite bpow_plus. simpl (bpow radix2 1). lra. }
  exists (rnd (B2R (i64_bin ms) * B2R b)), ((1 + e1) * (1 + e2) - 1)%R, eta.
  split.
  { replace ((1 + e1) * (1 + e2) - 1)%R with (e1 + (e2 + e1 * e2))%R by ring.
    apply Rle_trans with (1 := Rabs_triang _ _). apply Rle_trans with (bpow radix2 (-53) + (bpow radix2 (-53) + bpow radix2 (-53) * 1))%R.
    - apply Rplus_le_compat; [exact He1|]. apply Rle_trans with (1 := Rabs_triang _ _).
      apply Rplus_le_compat; [exact He2'|]. rewrite Rabs_mult.
      apply Rmult_le_compat; try apply Rabs_pos; [exact He1|]. apply Rle_trans with (1 := He2').
      apply (bpow_le radix2 (-53) 0). lia.
    - change (-51)%Z with (-53 + 2)%Z. rewrite bpow_plus. simpl (bpow radix2 2). pose proof (bpow_gt_0 radix2 (-53)). lra. }
  split; [exact Heta'|]. split; [rewrite Hrd, Hz1; ring|].
  destruct (Rlt_bool_spec (Rabs (rnd (B2R (i64_bin ms) * B2R b))) (bpow radix2 1024)) as [Hlt|Hge].
  - left. destruct H as [H1 [H2 _]]. rewrite Hz, Hb1 in H2. rewrite B2R_SF in H1. split; [|exact H1].
    unfold is_finite_f64. rewrite is_finite_SF_B2SF. exact H2.
  - right. rewrite H. exists (xorb (Bsign (i64_bin ms)) (Bsign b)). auto.
Qed.

(** * Rounding to an integer *)

Lemma floor_half m k :
  (0 <= m)%Z -> (0 < k)%Z ->
  (IZR ((2 * m + 2 ^ k) / 2 ^ (k + 1)) <= IZR m * bpow radix2 (- k) + /2
   < IZR ((2 * m + 2 ^ k) / 2 ^ (k + 1)) + 1)%R.
Proof.
  intros Hm Hk. set (q := ((2 * m + 2 ^ k) / 2 ^ (k + 1))%Z).
  assert (Hp : (0 < 2 ^ k)%Z) by (apply Z.pow_pos_nonneg; lia).
  assert (Hp1 : (2 ^ (k + 1) = 2 * 2 ^ k)%Z) by (rewrite Z.pow_add_r by lia; lia).
  assert (Hq : (q * 2 ^ (k + 1) <= 2 * m + 2 ^ k < (q + 1) * 2 ^ (k + 1))%Z).
  { unfold q. pose proof (Z.div_mod (2 * m + 2 ^ k) (2 ^ (k + 1)) ltac:(lia)).
    pose proof (Z.mod_pos_bound (2 * m + 2 ^ k) (2 ^ (k + 1)) ltac:(lia)). lia. }
  rewrite Hp1 in Hq.
  assert (Hb : bpow radix2 (- k) = (/ IZR (2 ^ k))%R).
  { rewrite bpow_opp. f_equal. rewrite <- IZR_Zpower by lia. reflexivity. }
  rewrite Hb. assert (HP : (0 < IZR (2 ^ k))%R) by (apply IZR_lt; lia).
  destruct Hq as [Hq1 Hq2]. apply IZR_le in Hq1. apply IZR_lt in Hq2.
  rewrite ?mult_IZR, ?plus_IZR, ?mult_IZR in Hq1. rewrite ?mult_IZR, ?plus_IZR, ?mult_IZR in Hq2.
  split.
  - apply Rmult_le_reg_r with (IZR (2 ^ k)); [exact HP|]. rewrite Rmult_plus_distr_r, Rmult_assoc, Rinv_l by lra. lra.
  - apply Rmult_lt_reg_r with (IZR (2 ^ k)); [exact HP|]. rewrite Rmult_plus_distr_r, Rmult_assoc, Rinv_l by lra. lra.
Qed.

(** Rounding half-way cases away from zero, then saturating. *)
Lemma round_as_i64_spec x :
  is_finite_f64 x ->
  exists a, (0 <= a)%Z /\ (IZR a <= Rabs (f64_real x) + /2 < IZR a + 1)%R
    /\ f64_round_as_i64 x = clamp_i64 (if Rlt_bool (f64_real x) 0 then - a else a).
Proof.
  destruct x as [s|s| |s m e]; intro Hf; try discriminate Hf.
  - exists 0%Z. unfold f64_real, SF2R. rewrite Rabs_R0. split; [lia|]. split; [lra|].
    rewrite Rlt_bool_false by lra. reflexivity.
  - assert (Hs : Rlt_bool (f64_real (S754_finite s m e)) 0 = s).
    { unfold f64_real, SF2R. destruct s.
      - apply Rlt_bool_true. apply F2R_lt_0. reflexivity.
      - apply Rlt_bool_false. apply F2R_ge_0. simpl. lia. }
    assert (Ha : Rabs (f64_real (S754_finite s m e)) = (IZR (Zpos m) * bpow radix2 e)%R).
    { unfold f64_real, SF2R. rewrite <- F2R_Zabs, abs_cond_Zopp. reflexivity. }
    rewrite Hs, Ha. cbn [f64_round_as_i64]. destruct e as [|k|k].
    + exists (Zpos m * 2 ^ 0)%Z. split; [lia|]. split; [|reflexivity]. simpl (bpow radix2 0). rewrite mult_IZR. simpl (2 ^ 0)%Z. lra.
    + exists (Zpos m * 2 ^ Zpos k)%Z. split; [lia|]. split; [|reflexivity].
      rewrite mult_IZR. change (2 ^ Zpos k)%Z with (Zpower radix2 (Zpos k)). rewrite IZR_Zpower by lia. lra.
    + exists ((2 * Zpos m + 2 ^ Zpos k) / 2 ^ (Zpos k + 1))%Z. split; [|split; [|reflexivity]].
      * apply Z.div_pos; [|apply Z.pow_pos_nonneg; lia]. pose proof (Z.pow_pos_nonneg 2 (Zpos k)). lia.
      * change (Z.neg k) with (- Zpos k)%Z. apply floor_half; lia.
Qed.

(** What the relative jitter computes, in milliseconds. *)
Lemma relative_ms_correct r v :
  is_f64 r -> is_finite_f64 r -> in_i64 (num_milliseconds v) = true ->
  let x := (IZR (num_milliseconds v) * f64_real r)%R in
  let m := IZR (jitter_ms (Relative r) v) in
  (Rabs m <= Rabs x * (1 + bpow radix2 (-51)) + (/2 + bpow radix2 (-1075)))%R
  /\ (Rabs x <= bpow radix2 62 -> Rabs (m - x) <= Rabs x * bpow radix2 (-51) + (/2 + bpow radix2 (-1075)))%R.
Proof.
  intros Hr Hf Hv. cbn zeta. cbn [jitter_ms].
  destruct (product_correct _ r Hv Hr Hf) as [w [e [eta [He [Heta [Hw Hy]]]]]]. cbn zeta in Hy.
  set (y := f64_mul (i64_as_f64 (num_milliseconds v)) r) in *.
  set (x := (IZR (num_milliseconds v) * f64_real r)%R) in *.
  pose proof (Rabs_pos x) as Hx0.
  assert (Hwx : (Rabs (w - x) <= Rabs x * bpow radix2 (-51) + bpow radix2 (-1075))%R).
  { replace (w - x)%R with (x * e + eta)%R by (rewrite Hw; ring). apply Rle_trans with (1 := Rabs_triang _ _).
    rewrite Rabs_mult. apply Rplus_le_compat; [|exact Heta]. apply Rmult_le_compat_l; auto. }
  assert (Hwa : (Rabs w <= Rabs x * (1 + bpow radix2 (-51)) + bpow radix2 (-1075))%R).
  { replace w with (x + (w - x))%R by ring. apply Rle_trans with (1 := Rabs_triang _ _). lra. }
  destruct Hy as [[Hyf Hyv]|[s [Hys Hbig]]].
  - destruct (round_as_i64_spec y Hyf) as [a [Ha0 [[Ha1 Ha2] Ha3]]]. rewrite Hyv in *. rewrite Ha3.
    assert (Hcl : (Z.abs (clamp_i64 (if Rlt_bool w 0 then - a else a)) <= a)%Z).
    { unfold clamp_i64, i64_min, i64_max. destruct (Rlt_bool w 0); lia. }
    split.
    + rewrite <- abs_IZR. apply IZR_le in Hcl. lra.
    + intro Hxs. assert (Has : (a <= i64_max)%Z).
      { assert (IZR a < IZR (2 ^ 63))%R; [|apply lt_IZR in H; unfold i64_max; lia].
        apply Rle_lt_trans with (1 := Ha1). apply Rle_lt_trans with (Rabs x * (1 + bpow radix2 (-51)) + bpow radix2 (-1075) + /2)%R; [lra|].
        assert (H62 : bpow radix2 62 = IZR (2 ^ 62)) by reflexivity. rewrite H62 in Hxs.
        assert (Hsm : (bpow radix2 (-51) <= bpow radix2 (-2))%R) by (apply bpow_le; lia).
        assert (Hsm2 : (bpow radix2 (-1075) <= bpow radix2 (-2))%R) by (apply bpow_le; lia).
        simpl (bpow radix2 (-2)) in Hsm, Hsm2. pose proof (bpow_gt_0 radix2 (-51)).
        replace (IZR (2 ^ 63)) with (IZR (2 ^ 62) + IZR (2 ^ 62))%R by (rewrite <- plus_IZR; reflexivity).
        assert (Hbig : (4 <= IZR (2 ^ 62))%R) by (apply IZR_le; lia). nra. }
      replace (clamp_i64 (if Rlt_bool w 0 then - a else a)) with (if Rlt_bool w 0 then - a else a)%Z
        by (unfold clamp_i64, i64_min, i64_max in *; destruct (Rlt_bool w 0); lia).
      assert (Hd : (Rabs (IZR (if Rlt_bool w 0 then - a else a) - w) <= /2)%R).
      { destruct (Rlt_bool_spec w 0) as [Hw0|Hw0].
        - rewrite Rabs_left in Ha1, Ha2 by lra. rewrite opp_IZR. apply Rabs_le. lra.
        - rewrite Rabs_pos_eq in Ha1, Ha2 by lra. apply Rabs_le. lra. }
      replace (IZR (if Rlt_bool w 0 then - a else a) - x)%R
        with (IZR (if Rlt_bool w 0 then - a else a) - w + (w - x))%R by ring.
      apply Rle_trans with (1 := Rabs_triang _ _). lra.
  - rewrite Hys.
    assert (Hm : (Rabs (IZR (f64_round_as_i64 (S754_infinity s))) <= bpow radix2 63)%R).
    { rewrite <- abs_IZR. change (bpow radix2 63) with (IZR (2 ^ 63)). apply IZR_le.
      destruct s; vm_compute; discriminate. }
    assert (Hlt : (bpow radix2 63 <= bpow radix2 1024)%R) by (apply bpow_le; lia).
    split; [lra|]. intro Hxs. exfalso.
    assert (Hsm : (bpow radix2 (-51) <= bpow radix2 0)%R) by (apply bpow_le; lia).
    assert (Hsm2 : (bpow radix2 (-1075) <= bpow radix2 0)%R) by (apply bpow_le; lia).
    assert (H64 : (bpow radix2 64 < bpow radix2 1024)%R) by (apply bpow_lt; lia).
    assert (E64 : bpow radix2 64 = (4 * bpow radix2 62)%R) by (change 64%Z with (2 + 62)%Z; rewrite bpow_plus; reflexivity).
    simpl (bpow radix2 0) in Hsm, Hsm2. pose proof (bpow_gt_0 radix2 (-51)).
    assert (H62 : (1 < bpow radix2 62)%R) by (apply (bpow_lt radix2 0 62); lia). nra.
Qed.
